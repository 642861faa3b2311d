From Coq Require Import String Ascii List Bool Arith Lia.
From Verif Require Import Str ResolveModel ResolveSpec.
Import ListNotations.
Open Scope string_scope.

Notation noslash := (sforall (fun c => negb (Ascii.eqb c "/"))).
Lemma split_noslash s : noslash s = true -> split_char "/" s = [s].
Proof.
  induction s as [|c s IH]; [reflexivity|]. cbn [sforall split_char]. rewrite andb_true_iff, negb_true_iff. intros [-> H]. now rewrite IH.
Qed.
Lemma split_more s t : noslash s = true -> split_char "/" (s ++ "/" ++ t) = s :: split_char "/" t.
Proof.
  induction s as [|c s IH]; [reflexivity|]. intros H. cbn [sforall] in H. rewrite andb_true_iff, negb_true_iff in H. destruct H as [D H].
  specialize (IH H). remember ("/" ++ t) as u. cbn [append split_char]. now rewrite D, IH.
Qed.
Lemma split_segments s : segments s (split_char "/" s).
Proof.
  assert (G : forall s, exists a l, split_char "/" s = a :: l).
  { clear. intros s. destruct s as [|c s]; cbn [split_char]; [eauto|]. destruct (Ascii.eqb c "/"); [eauto|]. destruct (split_char "/" s); eauto. }
  induction s as [|c s IH]; [now constructor|]. cbn [split_char]. destruct (Ascii.eqb_spec c "/") as [->|D].
  - change (String "/" s) with ("" ++ "/" ++ s). now constructor.
  - destruct (G s) as (a & l & E). rewrite E in *. inversion IH as [u H|u t k H K]; subst.
    + constructor. cbn [sforall]. rewrite H. destruct (Ascii.eqb_spec c "/"); [contradiction|reflexivity].
    + change (String c (a ++ "/" ++ t)) with (String c a ++ "/" ++ t). constructor; [|exact K]. cbn [sforall]. rewrite H. destruct (Ascii.eqb_spec c "/"); [contradiction|reflexivity].
Qed.
Lemma segments_split s l : segments s l -> split_char "/" s = l.
Proof. induction 1 as [s H|s t l H K IH]; [now apply split_noslash|]. now rewrite split_more, IH. Qed.
Lemma segments_noslash s l : segments s l -> Forall (fun x => noslash x = true) l.
Proof. induction 1; constructor; auto. Qed.
Lemma segments_join s l : segments s l -> sjoin "/" l = s.
Proof. induction 1 as [s H|s t l H K IH]; [reflexivity|]. destruct l; [inversion K|]. cbn [sjoin] in *. now rewrite IH. Qed.
Lemma join_segments l : l <> [] -> Forall (fun x => noslash x = true) l -> segments (sjoin "/" l) l.
Proof.
  induction l as [|a l IH]; intros H F; [congruence|]. inversion F as [|? ? Ha Hl]; subst. destruct l as [|b l]; [now constructor|].
  change (sjoin "/" (a :: b :: l)) with (a ++ "/" ++ sjoin "/" (b :: l)). constructor; [exact Ha|]. apply IH; [discriminate|exact Hl].
Qed.
Lemma name_dec s : noslash s = true -> s = ".." \/ (s = "." \/ s = "") \/ name s.
Proof.
  intros H. destruct (String.eqb_spec s ".."); [now left|]. right. destruct (String.eqb_spec s "."); [auto|]. destruct (String.eqb_spec s ""); [auto|].
  right. unfold name. auto.
Qed.
Lemma step_name d n : name n -> step d n = (d ++ [n])%list.
Proof.
  intros (A & B & C & _). unfold step. destruct (String.eqb_spec n ".."); [contradiction|]. destruct (String.eqb_spec n "."); [contradiction|].
  destruct (String.eqb_spec n ""); [contradiction|]. reflexivity.
Qed.
Lemma walks_fold d l e : walks d l e -> fold_left step l d = e.
Proof.
  induction 1 as [d|d n r e H IH|r e H IH|d s r e S H IH|d n r e N H IH]; cbn [fold_left]; [reflexivity|..].
  - change (step (d ++ [n]) "..") with (removelast (d ++ [n])). now rewrite removelast_last.
  - exact IH.
  - destruct S as [->| ->]; exact IH.
  - now rewrite step_name.
Qed.
Lemma fold_walks l : Forall (fun x => noslash x = true) l -> forall d, walks d l (fold_left step l d).
Proof.
  induction l as [|s l IH]; intros F d; [constructor|]. inversion F as [|? ? Hs Hl]; subst. cbn [fold_left].
  destruct (name_dec s Hs) as [->|[S|N]].
  - destruct d as [|x d _] using rev_ind; [apply up_root; apply IH; exact Hl|].
    change (step (d ++ [x]) "..") with (removelast (d ++ [x])). rewrite removelast_last. apply up. now apply IH.
  - replace (step d s) with d by (destruct S as [->| ->]; reflexivity). apply stay; [exact S|now apply IH].
  - rewrite step_name by exact N. apply down; [exact N|now apply IH].
Qed.
Lemma walks_names d l e : walks d l e -> Forall name d -> Forall name e.
Proof.
  induction 1 as [d|d n r e H IH|r e H IH|d s r e S H IH|d n r e N H IH]; intros F; auto.
  - apply Forall_app in F. now apply IH.
  - apply IH. apply Forall_app. auto.
Qed.
Lemma path_parts d : Forall name d -> (if String.eqb (path d) "" then [] else split_char "/" (path d)) = d.
Proof.
  intros F. destruct d as [|a d]; [reflexivity|].
  assert (NE : path (a :: d) <> "").
  { inversion F as [|? ? (A & _) _]; subst. unfold path. destruct d; cbn [sjoin]; [exact A|]. destruct a; [contradiction|discriminate]. }
  destruct (String.eqb_spec (path (a :: d)) ""); [contradiction|]. apply segments_split, join_segments; [discriminate|].
  apply Forall_forall. intros x Hx. rewrite Forall_forall in F. now destruct (F x Hx) as (_ & _ & _ & K).
Qed.

(** ** Resolution *)
Lemma resolves d t l : Forall name d -> starts_with "/" t = false -> segments t l ->
  exists e, walks d l e /\ Forall name e /\ resolve_rel_target (path d) t = path e.
Proof.
  intros F S G. exists (fold_left step l d).
  assert (W : walks d l (fold_left step l d)) by (apply fold_walks; now apply segments_noslash in G).
  split; [exact W|]. split; [now apply (walks_names d l)|]. unfold resolve_rel_target. rewrite S. rewrite path_parts by exact F.
  now rewrite (segments_split t l G).
Qed.
Lemma walks_down : forall l d, Forall name l -> walks d l (d ++ l).
Proof.
  induction l as [|n l IH]; intros d F; [rewrite app_nil_r; constructor|]. inversion F; subst. apply down; [assumption|].
  replace (d ++ n :: l)%list with ((d ++ [n]) ++ l)%list by (now rewrite <- app_assoc). now apply IH.
Qed.
Lemma walks_ups : forall d l, walks (d ++ l) (map (fun _ => "..") l) d.
Proof.
  intros d l. revert d. induction l as [|n l IH] using rev_ind; intros d; [rewrite app_nil_r; constructor|].
  rewrite map_app, app_assoc. cbn [map].
  assert (C : (map (fun _ : string => "..") l ++ [".."])%list = ".." :: map (fun _ : string => "..") l).
  { clear. induction l as [|x l IH]; [reflexivity|]. cbn [map app]. now rewrite IH. }
  rewrite C. apply up. apply IH.
Qed.
Lemma walks_app d a e b f : walks d a e -> walks e b f -> walks d (a ++ b) f.
Proof. induction 1; intros K; cbn [app]; [exact K|apply up|apply up_root|apply stay|apply down]; auto. Qed.
Lemma path_noslash_start l : Forall name l -> starts_with "/" (path l) = false.
Proof.
  destruct l as [|a l]; intros F; [reflexivity|]. inversion F as [|? ? (A & _ & _ & K) _]; subst. destruct a as [|c a]; [contradiction|].
  cbn [sforall] in K. rewrite andb_true_iff, negb_true_iff in K. destruct K as [K _]. 
  assert (E : exists r, path (String c a :: l) = String c r) by (unfold path; destruct l; cbn [sjoin append]; eauto). destruct E as [r ->].
  cbn [starts_with]. destruct (Ascii.eqb_spec "/" c) as [<-|]; [discriminate K|reflexivity].
Qed.
(** From directory [d/x1/../xn] to [d/y1/../ym] by n times ".." and the names. *)
Lemma sibling d x y : Forall name d -> Forall name x -> Forall name y -> y <> [] ->
  resolve_rel_target (path (d ++ x)) (sjoin "/" (map (fun _ => "..") x ++ y)) = path (d ++ y).
Proof.
  intros D X Y NE.
  assert (NS : Forall (fun z => noslash z = true) (map (fun _ => "..") x ++ y)).
  { apply Forall_app. split; [apply Forall_forall; intros z Hz; apply in_map_iff in Hz; destruct Hz as (w & <- & _); reflexivity|].
    apply Forall_forall. intros z Hz. rewrite Forall_forall in Y. now destruct (Y z Hz) as (_ & _ & _ & K). }
  assert (N0 : (map (fun _ => "..") x ++ y)%list <> []) by (destruct x; [exact NE|discriminate]).
  pose proof (join_segments _ N0 NS) as G.
  assert (S : starts_with "/" (sjoin "/" (map (fun _ => "..") x ++ y)) = false).
  { destruct x as [|x0 x]; [now apply path_noslash_start|]. cbn [map app sjoin]. destruct (map (fun _ => "..") x ++ y)%list; reflexivity. }
  unfold resolve_rel_target. rewrite S, path_parts by (apply Forall_app; auto). rewrite (segments_split _ _ G).
  unfold path. f_equal. apply walks_fold. apply (walks_app _ _ d); [apply walks_ups|now apply walks_down].
Qed.
Lemma below d y : Forall name d -> Forall name y -> y <> [] -> resolve_rel_target (path d) (path y) = path (d ++ y).
Proof. intros D Y NE. pose proof (sibling d [] y D (Forall_nil _) Y NE) as H. now rewrite app_nil_r in H. Qed.
Lemma absolute b y : Forall name y -> y <> [] -> resolve_rel_target b ("/" ++ path y) = path y.
Proof.
  intros Y NE. unfold resolve_rel_target. cbn [append starts_with]. rewrite Ascii.eqb_refl. 
  cbn [trim_start_by]. rewrite Ascii.eqb_refl. pose proof (path_noslash_start y Y) as S. destruct (path y) as [|c r]; [reflexivity|].
  cbn [starts_with] in S. cbn [trim_start_by]. destruct (Ascii.eqb "/" c); [destruct r; discriminate|reflexivity].
Qed.
Lemma absolute_any b b' t : starts_with "/" t = true -> resolve_rel_target b t = resolve_rel_target b' t.
Proof. unfold resolve_rel_target. now intros ->. Qed.

(** ** Source directory of a relationship part *)
Lemma split_once_first d n : Forall name d -> d <> [] -> Forall (fun x => x <> "_rels") d ->
  split_once "/_rels/" (path d ++ "/_rels/" ++ n) = Some (path d, n).
Proof.
  intros F NE NR.
  assert (P : forall s t, noslash s = true -> split_once "/_rels/" (s ++ t) = match split_once "/_rels/" t with Some (a, b) => Some (s ++ a, b) | None => None end).
  { clear. induction s as [|c s IH]; intros t H; [cbn [append]; now destruct (split_once "/_rels/" t) as [[a b]|]|].
    cbn [sforall] in H. rewrite andb_true_iff, negb_true_iff in H. destruct H as [H K].
    assert (Q : strip_prefix "/_rels/" (String c (s ++ t)) = None).
    { cbn [strip_prefix]. destruct (Ascii.eqb_spec "/" c) as [<-|]; [discriminate H|reflexivity]. }
    cbn [append split_once]. rewrite Q, IH by exact K. now destruct (split_once "/_rels/" t) as [[a b]|]. }
  induction d as [|a d IH]; [congruence|]. inversion F as [|? ? Fa Fd]; subst. inversion NR as [|? ? Na Nd]; subst. destruct Fa as (A1 & A2 & A3 & A4).
  destruct d as [|b d].
  - unfold path. cbn [sjoin]. rewrite P by exact A4. cbn [append split_once strip_prefix]. rewrite !Ascii.eqb_refl. now rewrite sapp_nil_r.
  - change (path (a :: b :: d)) with (a ++ "/" ++ path (b :: d)). rewrite !sapp_assoc, P by exact A4.
    assert (IH' := IH Fd ltac:(discriminate) Nd). 
    assert (Q : strip_prefix "/_rels/" ("/" ++ (path (b :: d) ++ "/_rels/" ++ n)) = None).
    { inversion Nd as [|? ? Nb _]; subst. inversion Fd as [|? ? (_ & _ & _ & B4) _]; subst.
      change (strip_prefix "_rels/" (path (b :: d) ++ "/_rels/" ++ n) = None).
      assert (E : exists r, path (b :: d) ++ "/_rels/" ++ n = b ++ "/" ++ r).
      { unfold path. destruct d; cbn [sjoin]; rewrite ?sapp_assoc; eauto. exists ("_rels/" ++ n). reflexivity. }
      destruct E as [r ->]. clear -Nb B4.
      assert (S : forall p b r, noslash p = true -> noslash b = true -> p <> b -> strip_prefix (p ++ "/") (b ++ "/" ++ r) = None).
      { clear. induction p as [|x p IH]; intros [|y b] r Hp Hb D; try congruence.
        - cbn [sforall] in Hb. rewrite andb_true_iff, negb_true_iff in Hb. destruct Hb as [Hb _]. cbn [append strip_prefix].
          destruct (Ascii.eqb_spec "/" y) as [<-|]; [discriminate Hb|reflexivity].
        - cbn [sforall] in Hp. rewrite andb_true_iff, negb_true_iff in Hp. destruct Hp as [Hp _]. cbn [append strip_prefix]. now rewrite Hp.
        - cbn [sforall] in Hp, Hb. rewrite andb_true_iff in Hp, Hb. cbn [append strip_prefix]. destruct (Ascii.eqb_spec x y) as [->|]; [|reflexivity].
          apply IH; [tauto|tauto|congruence]. }
      apply (S "_rels" b r); [reflexivity|exact B4|congruence]. }
    change ("/" ++ path (b :: d) ++ "/_rels/" ++ n) with (String "/" (path (b :: d) ++ "/_rels/" ++ n)) in *.
    assert (U : split_once "/_rels/" (String "/" (path (b :: d) ++ "/_rels/" ++ n)) = Some ("/" ++ path (b :: d), n)).
    { cbn [split_once]. change (strip_prefix "/_rels/" (String "/" (path (b :: d) ++ "/_rels/" ++ n)) = None) in Q. rewrite Q, IH'. reflexivity. }
    rewrite U. reflexivity.
Qed.
Lemma split_once_srev f d : noslash f = true -> rsplit_once "/" (d ++ "/" ++ f) = Some (d, f).
Proof.
  intros H. unfold rsplit_once. rewrite !srev_sapp.
  assert (N : noslash (srev f) = true).
  { clear -H. induction f as [|c f IH]; [reflexivity|]. cbn [sforall] in H. rewrite andb_true_iff in H. rewrite srev_cons, sforall_app. cbn [sforall s1]. rewrite IH by tauto. now rewrite andb_true_r. }
  assert (P : forall s t, noslash s = true -> split_once (s1 "/") (s ++ s1 "/" ++ t) = Some (s, t)).
  { clear. induction s as [|c s IH]; intros t H; [cbn; now rewrite ?Ascii.eqb_refl|]. cbn [sforall] in H. rewrite andb_true_iff, negb_true_iff in H.
    destruct H as [H K]. cbn [append split_once]. 
    assert (Q : strip_prefix (s1 "/") (String c (s ++ String "/" t)) = None).
    { cbn [strip_prefix s1]. destruct (Ascii.eqb_spec "/" c) as [<-|]; [discriminate H|reflexivity]. }
    specialize (IH t K). change (s1 "/" ++ t) with (String "/" t) in *. rewrite Q, IH. reflexivity. }
  change (srev "/") with (s1 "/"). rewrite sapp_assoc, P by exact N. now rewrite !srev_involutive.
Qed.
Lemma strip_rels s : strip_suffix_or_self ".rels" (s ++ ".rels") = s.
Proof. unfold strip_suffix_or_self. rewrite srev_sapp. rewrite strip_prefix_app. apply srev_involutive. Qed.
Lemma source_dir d f : Forall name d -> d <> [] -> Forall (fun x => x <> "_rels") d -> noslash f = true ->
  rels_source_dir (path d ++ "/_rels/" ++ f ++ ".rels") = path d.
Proof.
  intros F NE NR NS. unfold rels_source_dir.
  destruct (String.eqb_spec (path d ++ "/_rels/" ++ f ++ ".rels") "_rels/.rels") as [E|_].
  { exfalso. apply (f_equal (split_once "/_rels/")) in E. rewrite split_once_first in E by assumption. discriminate E. }
  rewrite split_once_first by assumption.
  replace (path d ++ "/" ++ f ++ ".rels") with ((path d ++ "/" ++ f) ++ ".rels") by (now rewrite !sapp_assoc).
  rewrite strip_rels. now rewrite split_once_srev.
Qed.
