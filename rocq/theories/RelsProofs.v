From Coq Require Import String Ascii List Bool Arith NArith Lia.
From Verif Require Import Str StrRefl Num EscapeModel EscapeProofs XmlSpec XmlProofs XmlTpl OpcSpec GenProofs TplRead XmlTreeModel XmlTreeSpec XmlTreeProofs RelsModel RelsSpec.
Import ListNotations.
Open Scope string_scope.

(** No stored id is "rId<k>" with [next_id <= k]. *)
Definition inv (s : rels) : Prop :=
  forall r k, In r (list_of s) -> (next_id s <= k <= 4294967295)%N -> id r <> "rId" ++ dec k.

Lemma strip_rid k : strip_prefix "rId" ("rId" ++ dec k) = Some (dec k).
Proof. reflexivity. Qed.
Lemma sapp_inj p a b : p ++ a = p ++ b -> a = b.
Proof. induction p as [|c p IH]; cbn [append]; [auto|]. intros H. injection H. exact IH. Qed.

Lemma add_inv t g s : inv s -> (next_id s <= 4294967294)%N -> inv (snd (add t g s)).
Proof.
  intros I L r k Hr Hk. unfold add in *. cbn [snd list_of next_id] in *. rewrite wadd_exact in Hk by (unfold u32_max; lia).
  apply in_app_iff in Hr. destruct Hr as [Hr|[<-|[]]]; [apply I; [exact Hr|lia]|]. cbn [id].
  intros E. apply sapp_inj, dec_inj in E. lia.
Qed.
Definition num_of (i : string) : option N := match strip_prefix "rId" i with Some d => parse_uint u32_max d | None => None end.
Lemma next_with i t g s : next_id (add_with_id i t g s) =
  match num_of i with Some n => if (next_id s <=? n)%N then wadd u32_max n 1 else next_id s | None => next_id s end.
Proof. unfold add_with_id, num_of. cbn [next_id]. destruct (strip_prefix "rId" i); reflexivity. Qed.
Lemma num_of_rid k : (k <= 4294967295)%N -> num_of ("rId" ++ dec k) = Some k.
Proof. intros H. unfold num_of. rewrite strip_rid. now apply parse_uint_dec. Qed.

Lemma with_inv i t g s : inv s -> (forall n, num_of i = Some n -> n <= 4294967294)%N -> inv (add_with_id i t g s).
Proof.
  intros I L r k Hr Hk. rewrite next_with in Hk. unfold add_with_id in Hr. cbn [list_of] in Hr. apply in_app_iff in Hr.
  destruct Hr as [Hr|[<-|[]]].
  - apply I; [exact Hr|]. split; [|apply Hk]. destruct Hk as [Hk _]. destruct (num_of i) as [n|] eqn:E; [|exact Hk].
    specialize (L n eq_refl). destruct (N.leb_spec (next_id s) n); [|exact Hk]. rewrite wadd_exact in Hk by (unfold u32_max; lia). lia.
  - cbn [id]. intros ->. rewrite num_of_rid in Hk by apply Hk. specialize (L k (num_of_rid k (proj2 Hk))).
    destruct (N.leb_spec (next_id s) k); [rewrite wadd_exact in Hk by (unfold u32_max; lia)|]; lia.
Qed.

Lemma run_from l : forall s m c, inv s -> (next_id s <= m + 1 + c)%N ->
  (forall o n, In o l -> explicit_number o = Some n -> n <= m)%N -> (m + 1 + c + N.of_nat (length l) <= 4294967295)%N ->
  inv (fold_left step l s) /\ (next_id (fold_left step l s) <= m + 1 + c + N.of_nat (length l))%N.
Proof.
  induction l as [|o l IH]; intros s m c I L M B; cbn [fold_left length] in *; [split; [exact I|lia]|].
  assert (S1 : inv (step s o) /\ (next_id (step s o) <= m + 1 + (c + 1))%N).
  { destruct o as [t g|i t g]; cbn [step].
    - split; [apply add_inv; [exact I|lia]|]. cbn [add snd next_id]. rewrite wadd_exact by (unfold u32_max; lia). lia.
    - assert (Mi : forall n, num_of i = Some n -> (n <= m)%N) by (intros n Hn; exact (M (AddWithId i t g) n (or_introl eq_refl) Hn)).
      split; [apply with_inv; [exact I|intros n Hn; specialize (Mi n Hn); lia]|]. rewrite next_with.
      destruct (num_of i) as [n|] eqn:E; [|lia]. specialize (Mi n eq_refl).
      destruct (N.leb_spec (next_id s) n); [|lia]. rewrite wadd_exact by (unfold u32_max; lia). lia. }
  destruct (IH (step s o) m (c + 1)%N (proj1 S1) (proj2 S1)) as [A B']; [intros o' n Ho; apply M; now right|lia|].
  split; [exact A|lia].
Qed.
Lemma run_inv l : in_range l -> inv (run l) /\ (next_id (run l) <= 4294967295)%N.
Proof.
  intros (m & M & B). destruct (run_from l rels_new m 0) as [A C]; [intros r k []|cbn; lia|exact M|lia|]. split; [exact A|]. unfold run. lia.
Qed.

Lemma find_app {A} (f : A -> bool) l1 l2 : find f (l1 ++ l2) = match find f l1 with Some x => Some x | None => find f l2 end.
Proof. induction l1 as [|x l IH]; cbn; [reflexivity|]. now destruct (f x). Qed.

Lemma steps_extend l s : exists l', list_of (fold_left step l s) = (list_of s ++ l')%list.
Proof.
  revert s; induction l as [|o l IH]; intros s; cbn [fold_left]; [exists []; now rewrite app_nil_r|].
  destruct (IH (step s o)) as [l' E]. rewrite E. destruct o; cbn [step add snd list_of add_with_id];
    rewrite <- app_assoc; eexists; reflexivity.
Qed.
Lemma get_stable l s i r : get i s = Some r -> get i (fold_left step l s) = Some r.
Proof. intros H. destruct (steps_extend l s) as [l' E]. unfold get in *. now rewrite E, find_app, H. Qed.

Lemma add_fresh l t g : in_range l ->
  let '(i, s') := add t g (run l) in
  (forall r, In r (list_of (run l)) -> id r <> i) /\
  list_of s' = (list_of (run l) ++ [Relationship i t g])%list /\
  forall more, get i (fold_left step more s') = Some (Relationship i t g).
Proof.
  intros R. destruct (run_inv l R) as [I B]. unfold add. cbv zeta.
  assert (F : forall r, In r (list_of (run l)) -> id r <> "rId" ++ dec (next_id (run l))) by (intros r Hr; apply I; [exact Hr|lia]).
  split; [exact F|]. split; [reflexivity|]. intros more. apply get_stable. unfold get. cbn [list_of]. rewrite find_app.
  destruct (find _ (list_of (run l))) eqn:E.
  - apply find_some in E. destruct E as [E1 E2]. apply String.eqb_eq in E2. now apply F in E1.
  - cbn [find id]. now rewrite String.eqb_refl.
Qed.

Lemma with_id_get s i t g : forall more,
  get i (fold_left step more (add_with_id i t g s)) = match get i s with Some r => Some r | None => Some (Relationship i t g) end.
Proof.
  intros more.
  assert (E : get i (add_with_id i t g s) = match get i s with Some r => Some r | None => Some (Relationship i t g) end).
  { unfold get, add_with_id. cbn [list_of]. rewrite find_app. destruct (find _ _); [reflexivity|]. cbn [find id]. now rewrite String.eqb_refl. }
  destruct (get i s); now apply get_stable.
Qed.

(** ** XML *)
Lemma plain_attr_val c : plain_attr c = true -> plain_val c = true.
Proof. destruct c as [[] [] [] [] [] [] [] []]; vm_compute; auto. Qed.
Lemma sforall_plain s : sforall plain_attr s = true -> sforall plain_val s = true.
Proof. apply sforall_weaken, plain_attr_val. Qed.

Definition writable (r : relationship) : Prop :=
  sforall plain_attr (id r) = true /\ sforall plain_attr (target r) = true /\ sforall plain_attr (uri (rel_type r)) = true.
Definition relE (r : relationship) : tpl :=
  TS "Relationship" [("Id", [Lit (id r)]); ("Type", [Lit (uri (rel_type r))]); ("Target", [Lit (target r)])].
Definition relsT (s : rels) : tpl :=
  TE "Relationships" xmlns_rels (flat_map (fun r => [TT [Lit (lf ++ "    ")]; relE r]) (list_of s) ++ [TT [Lit lf]]).
Lemma rels_tpl s : rels_xml s = decl ++ lf ++ tstr (relsT s).
Proof.
  unfold rels_xml, relsT. cbn [tstr]. rewrite map_app, sconcat_app.
  fold (tstrs (flat_map (fun r => [TT [Lit (lf ++ "    ")]; relE r]) (list_of s))). rewrite tstrs_flat_map.
  rewrite (sconcat_ext _ (fun r => tstrs [TT [Lit (lf ++ "    ")]; relE r])) by (intros r _; unfold rel_xml, relE, lf; tstr_eq).
  set (X := sconcat (map _ _)). clearbody X. unfold decl, lf. tstr_eq.
Qed.
Lemma rels_tok s : Forall writable (list_of s) -> tok (relsT s).
Proof.
  intros W. rewrite Forall_forall in W. unfold relsT. apply tok_TE; [reflexivity|vm_compute; reflexivity|]. apply toks_app. split; [|repeat split].
  apply toks_flat_map. intros r Hr. destruct (W r Hr) as (A & B & C). apply sforall_plain in A, B, C.
  split; [reflexivity|]. split; [|exact I]. unfold relE. cbn [tok]. split; [reflexivity|].
  unfold tattrs_ok. apply andb_true_iff. split; [reflexivity|]. cbn [forallb fst snd pv_ok]. now rewrite A, B, C.
Qed.
Definition rel_node (r : relationship) : node := Elem "Relationship" [("Id", id r); ("Type", uri (rel_type r)); ("Target", target r)] [].
Lemma rel_nodes l ws : named "Relationship" (tsnodes (flat_map (fun r => [TT [Lit ws]; relE r]) l)) = map rel_node l.
Proof.
  induction l as [|r l IH]; [reflexivity|]. cbn [flat_map app]. rewrite named_text. erewrite named_cons by reflexivity.
  cbn [String.eqb Ascii.eqb Bool.eqb map]. rewrite IH. f_equal. cbn. unfold vals. cbn. now rewrite !sapp_nil_r.
Qed.
Lemma rels_read s : Forall writable (list_of s) ->
  exists a ks, xml_read (rels_xml s) = Some (Elem "Relationships" a (merge_text ks)) /\
    named "Relationship" (merge_text ks) = map rel_node (list_of s) /\ named "Relationship" ks = map rel_node (list_of s) /\
    forall x, In x ks -> match x with Elem n _ _ => n = "Relationship" | Txt t => blank t = true end.
Proof.
  intros W. eexists _, _. split; [|split; [|split]].
  - rewrite rels_tpl. unfold relsT. apply tpl_read; [reflexivity|reflexivity|exact (rels_tok s W)].
  - rewrite named_merge, tsnodes_app, named_app, rel_nodes. apply app_nil_r.
  - rewrite tsnodes_app, named_app, rel_nodes. apply app_nil_r.
  - intros x Hx. rewrite tsnodes_app, in_app_iff in Hx. destruct Hx as [Hx|[<-|[]]]; [|reflexivity].
    rewrite tsnodes_flat_map in Hx. apply in_flat_map in Hx. destruct Hx as (r & _ & [<-|[<-|[]]]); reflexivity.
Qed.

Lemma rels_spec_read s : Forall writable (list_of s) ->
  rels_of (rels_xml s) = Some (map (fun r => Rel (id r) (uri (rel_type r)) (target r) "") (list_of s)).
Proof.
  intros W. destruct (rels_read s W) as (a & ks & H & N & _). unfold rels_of. rewrite H, N, map_map. reflexivity.
Qed.

Lemma kid_trees_merge l : kid_trees (merge_text l) = kid_trees l.
Proof.
  induction l as [|[n a k|t] l IH]; [reflexivity|cbn [merge_text kid_trees flat_map]; f_equal; exact IH|].
  cbn [merge_text kid_trees flat_map tree app]. fold (kid_trees l). rewrite <- IH.
  destruct (merge_text l) as [|[n a k|t'] m]; [|destruct (String.eqb t "")|]; try reflexivity. now destruct (String.eqb t "").
Qed.
Definition rel_el (r : relationship) : xel :=
  XE "Relationship" "Relationship" [("Target", target r); ("Type", uri (rel_type r)); ("Id", id r)] [] "".
Lemma kid_trees_rels ks l : (forall x, In x ks -> match x with Elem n _ _ => n = "Relationship" | Txt t => blank t = true end) ->
  named "Relationship" ks = map rel_node l -> kid_trees ks = map rel_el l.
Proof.
  revert l; induction ks as [|[n a k|t] ks IH]; intros l H N.
  - destruct l; [reflexivity|discriminate].
  - pose proof (H _ (or_introl eq_refl)) as E. cbn in E. subst n.
    change (named "Relationship" (Elem "Relationship" a k :: ks)) with (Elem "Relationship" a k :: named "Relationship" ks) in N.
    destruct l as [|r l]; [discriminate|]. cbn [map] in N. injection N as -> -> N.
    cbn [kid_trees flat_map]. rewrite tree_elem. cbn [app map]. f_equal. apply IH; [intros x Hx; apply H; now right|exact N].
  - cbn [kid_trees flat_map tree app]. apply IH; [intros x Hx; apply H; now right|exact N].
Qed.
Lemma find_all_rels l t n a x : find_all "Relationship" (XE t n a (map rel_el l) x) = map rel_el l.
Proof. unfold find_all. cbn [kids]. induction l as [|r l IH]; [reflexivity|]. cbn [map filter]. cbn [rel_el local_name]. rewrite String.eqb_refl. now f_equal. Qed.

(** Adding again what a history stored gives the same collection. *)
Definition readd (s : rels) (r : relationship) : rels := add_with_id (id r) (rel_type r) (target r) s.
Lemma readd_list l : forall s, list_of (fold_left readd l s) = (list_of s ++ l)%list.
Proof.
  induction l as [|[i t g] l IH]; intros s; cbn [fold_left]; [now rewrite app_nil_r|]. rewrite IH. unfold readd, add_with_id. cbn [list_of id rel_type target].
  now rewrite <- app_assoc.
Qed.
Lemma readd_run l : in_range l -> fold_left readd (list_of (run l)) rels_new = run l.
Proof.
  intros (m & M & B). assert (G : forall l s c, fold_left readd (list_of s) rels_new = s -> (next_id s <= m + 1 + c)%N ->
    (forall o n, In o l -> explicit_number o = Some n -> n <= m)%N -> (m + 1 + c + N.of_nat (length l) <= 4294967295)%N ->
    fold_left readd (list_of (fold_left step l s)) rels_new = fold_left step l s).
  { clear. induction l as [|o l IH]; intros s c R L M B; cbn [fold_left length] in *; [exact R|].
    apply (IH (step s o) (c + 1)%N).
    - destruct o as [t g|i t g]; cbn [step add snd list_of add_with_id]; rewrite fold_left_app, R; cbn [fold_left]; [|reflexivity].
      unfold readd, add_with_id. cbn [id rel_type target list_of]. f_equal.
      rewrite strip_rid, parse_uint_dec by (unfold u32_max; lia). now rewrite N.leb_refl.
    - destruct o as [t g|i t g]; cbn [step].
      + cbn [add snd next_id]. rewrite wadd_exact by (unfold u32_max; lia). lia.
      + rewrite next_with. destruct (num_of i) as [n|] eqn:E; [|lia].
        pose proof (M (AddWithId i t g) n (or_introl eq_refl) E). destruct (N.leb_spec (next_id s) n); [|lia].
        rewrite wadd_exact by (unfold u32_max; lia). lia.
    - intros o' n Ho. apply M. now right.
    - lia. }
  apply (G l rels_new 0%N); [reflexivity|cbn; lia|exact M|lia].
Qed.

Lemma from_uri_stable t : stable_type t -> from_uri (uri t) = t.
Proof. destruct t; cbn [stable_type]; intros H; try contradiction; try (vm_compute; reflexivity). apply H. Qed.
Lemma uri_plain t : stable_type t -> sforall plain_attr (uri t) = true.
Proof. destruct t; cbn [stable_type]; intros H; try contradiction; try (vm_compute; reflexivity). apply H. Qed.

Lemma rels_roundtrip l : in_range l ->
  Forall (fun r => sforall plain_attr (id r) = true /\ sforall plain_attr (target r) = true /\ stable_type (rel_type r)) (list_of (run l)) ->
  from_xml (rels_xml (run l)) = Some (run l).
Proof.
  intros R W. assert (W' : Forall writable (list_of (run l))).
  { eapply Forall_impl; [|exact W]. intros r (A & B & C). split; [exact A|]. split; [exact B|]. now apply uri_plain. }
  destruct (rels_read (run l) W') as (a & ks & H & _ & N & K). unfold from_xml. rewrite (parse_tree _ _ _ _ H), tree_elem.
  rewrite kid_trees_merge, (kid_trees_rels ks (list_of (run l)) K N). cbn [option_map]. f_equal. unfold from_root. rewrite find_all_rels.
  rewrite <- (readd_run l R) at 2. clear H N K R W'. revert W. generalize rels_new as s. generalize (list_of (run l)) as L. clear.
  induction L as [|r L IH]; intros s W; [reflexivity|]. inversion W as [|? ? (A & B & C) W2]; subst. cbn [map fold_left]. rewrite IH by exact W2.
  f_equal. unfold add_elem, readd. cbn. now rewrite from_uri_stable.
Qed.
