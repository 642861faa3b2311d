From stdpp Require Import gmap strings.
From Coq Require Import String Ascii List Bool Arith NArith Lia.
From Verif Require Import Str PackageModel CompressModel CompressSpec.
Import ListNotations.
Open Scope nat_scope.
Open Scope string_scope.
Local Arguments String.append _ _ : simpl nomatch.

Lemma dense_app a b : dense (a ++ b) = dense a ++ dense b.
Proof. unfold dense. induction a as [|c a IH]; [reflexivity|]. cbn [append sfilter]. destruct (negb (blank c)); cbn [append]; now rewrite IH. Qed.
Lemma dense_ws c : ws4 c = true -> dense (s1 c) = "".
Proof. intros H. unfold dense, s1. cbn [sfilter]. change (blank c) with (ws4 c). now rewrite H. Qed.
Lemma dense_cons c s : ws4 c = false -> dense (String c s) = String c (dense s).
Proof. intros H. unfold dense. cbn [sfilter]. change (blank c) with (ws4 c). now rewrite H. Qed.
Lemma sfold_app {A} (f : A -> ascii -> A) a b x : sfold f (a ++ b) x = sfold f b (sfold f a x).
Proof. revert x. induction a as [|c a IH]; intros x; [reflexivity|]. cbn [append sfold]. apply IH. Qed.
Lemma spop_app s c : spop (s ++ s1 c) = s.
Proof. unfold spop. rewrite srev_sapp. cbn [srev srev_app s1 append]. apply srev_involutive. Qed.
Lemma ws3_4 c : ws3 c = true -> ws4 c = true.
Proof. unfold ws3, ws4. intros ->. reflexivity. Qed.
Definition ends_ws (s : string) : Prop := s = "" \/ exists o c, s = o ++ s1 c /\ ws4 c = true.
Record inv (t : string) (m : mstate) : Prop := Inv {
  i_dense : dense (m_out m) = dense t;
  i_len : String.length (m_out m) <= String.length t;
  i_ws : ws4 (m_prev m) = true -> ends_ws (m_out m) }.
Lemma slen_app a b : String.length (a ++ b) = String.length a + String.length b.
Proof. induction a; cbn [append String.length Nat.add]; congruence. Qed.
Lemma inv_step t m c : inv t m -> inv (t ++ s1 c) (mstep m c).
Proof.
  intros [D L W]. unfold mstep.
  assert (P : dense (mpush (m_out m) c) = dense (t ++ s1 c)) by (unfold mpush; now rewrite !dense_app, D).
  assert (LP : String.length (mpush (m_out m) c) <= String.length (t ++ s1 c)) by (unfold mpush; rewrite !slen_app; lia).
  assert (WP : ws4 c = true -> ends_ws (mpush (m_out m) c)) by (intros H; right; now exists (m_out m), c).
  destruct (Ascii.eqb c DQ); [now split|].
  destruct (Ascii.eqb_spec c "<") as [->|_]; cbn [andb].
  - destruct (negb (m_str m)); [|now split].
    destruct (ws3 (m_prev m) && negb (String.eqb (m_out m) "")) eqn:E; [|split; auto; discriminate].
    apply andb_true_iff in E. destruct E as [E1 E2]. apply negb_true_iff, String.eqb_neq in E2.
    destruct (W (ws3_4 _ E1)) as [W'|(o & w & W1 & W2)]; [contradiction|]. rewrite W1 in D, L. rewrite W1, spop_app. split; cbn [m_out m_prev]; [| |discriminate].
    + unfold mpush. rewrite !dense_app. rewrite dense_app in D. rewrite <- D, (dense_ws _ W2). now rewrite sapp_nil_r.
    + unfold mpush. rewrite slen_app in *. rewrite slen_app. cbn in *. lia.
  - destruct (Ascii.eqb_spec c ">") as [->|_]; cbn [andb].
    + change (ws4 ">") with false. cbn [andb]. destruct (negb (m_str m)); split; auto.
    + destruct (ws4 c && negb (m_tag m) && negb (m_str m)) eqn:E; [|now split].
      apply andb_true_iff in E. destruct E as [E _]. apply andb_true_iff in E. destruct E as [E _].
      destruct (Ascii.eqb_spec (m_prev m) " ") as [Q|_].
      * split; cbn [m_out m_prev]; [rewrite dense_app, D, (dense_ws _ E); now rewrite sapp_nil_r|rewrite slen_app; lia|]. intros _. apply W. now rewrite Q.
      * split; cbn [m_out m_prev].
        -- unfold mpush. rewrite !dense_app, D. now rewrite (dense_ws _ E).
        -- unfold mpush. rewrite !slen_app. cbn. lia.
        -- intros _. right. exists (m_out m), " "%char. split; reflexivity.
Qed.
Lemma inv_fold s : forall t m, inv t m -> inv (t ++ s) (sfold mstep s m).
Proof.
  induction s as [|c s IH]; intros t m H; [now rewrite sapp_nil_r|]. cbn [sfold]. replace (t ++ String c s) with ((t ++ s1 c) ++ s) by (now rewrite sapp_assoc). apply IH. now apply inv_step.
Qed.
Lemma inv_all s : inv s (sfold mstep s minit).
Proof. apply (inv_fold s "" minit). split; cbn; [reflexivity|lia|now left]. Qed.
Lemma minimize_dense s : dense (minimize_xml s) = dense s.
Proof. apply (i_dense _ _ (inv_all s)). Qed.
Lemma minimize_length s : String.length (minimize_xml s) <= String.length s.
Proof. apply (i_len _ _ (inv_all s)). Qed.

(** ** Tags are kept as they are *)
Fixpoint slast (d : ascii) (s : string) : ascii := match s with "" => d | String c r => slast c r end.
Lemma value_fold v : forall o p, sforall (fun c => negb (Ascii.eqb c DQ)) v = true -> sfold mstep v (M o true true p) = M (o ++ v) true true (slast p v).
Proof.
  induction v as [|c v IH]; intros o p H; [cbn; now rewrite sapp_nil_r|]. cbn [sforall] in H. rewrite andb_true_iff, negb_true_iff in H. destruct H as [Hc Hv].
  cbn [sfold slast]. replace (mstep (M o true true p) c) with (M (o ++ s1 c) true true c).
  - rewrite IH by exact Hv. now rewrite sapp_assoc.
  - unfold mstep. rewrite Hc. cbn [m_out m_tag m_str m_prev negb]. rewrite !andb_false_r. reflexivity.
Qed.
Lemma body_fold b : tagbody b -> forall o p, exists q, sfold mstep b (M o true false p) = M (o ++ b) true false q.
Proof.
  induction 1 as [|c s P H IH|v s V H IH]; intros o p.
  - exists p. cbn. now rewrite sapp_nil_r.
  - unfold plain3 in P. rewrite !andb_true_iff, !negb_true_iff in P. destruct P as [[P1 P2] P3]. cbn [sfold].
    replace (mstep (M o true false p) c) with (M (o ++ s1 c) true false c).
    2:{ unfold mstep. rewrite P1, P2, P3. cbn [andb m_tag negb]. rewrite andb_false_r. reflexivity. }
    destruct (IH (o ++ s1 c) c) as [q ->]. exists q. now rewrite sapp_assoc.
  - rewrite !sfold_app. change (sfold mstep dq (M o true false p)) with (M (o ++ dq) true true DQ). rewrite value_fold by exact V.
    change (sfold mstep dq (M ((o ++ dq) ++ v) true true (slast DQ v))) with (M (((o ++ dq) ++ v) ++ dq) true false DQ).
    destruct (IH (((o ++ dq) ++ v) ++ dq) DQ) as [q ->]. exists q. now rewrite !sapp_assoc.
Qed.
Fixpoint sq (p : ascii) (t : string) : string :=
  match t with "" => "" | String c r => (if ws4 c then (if Ascii.eqb p " " then "" else " ") else s1 c) ++ sq c r end.
Lemma text_fold t : forall o p, sforall plain3 t = true -> sfold mstep t (M o false false p) = M (o ++ sq p t) false false (slast p t).
Proof.
  induction t as [|c t IH]; intros o p H; [cbn; now rewrite sapp_nil_r|]. cbn [sforall] in H. rewrite andb_true_iff in H. destruct H as [P H].
  unfold plain3 in P. rewrite !andb_true_iff, !negb_true_iff in P. destruct P as [[P1 P2] P3]. cbn [sfold sq slast].
  replace (mstep (M o false false p) c) with (M (o ++ (if ws4 c then (if Ascii.eqb p " " then "" else " ") else s1 c)) false false c).
  - rewrite IH by exact H. now rewrite sapp_assoc.
  - unfold mstep. rewrite P1, P2, P3. cbn [andb m_tag m_str m_out m_prev negb]. rewrite !andb_true_r. destruct (ws4 c); [|reflexivity].
    destruct (Ascii.eqb p " "); [now rewrite sapp_nil_r|reflexivity].
Qed.
Lemma sq_dense t : forall p, dense (sq p t) = dense t.
Proof.
  induction t as [|c t IH]; intros p; [reflexivity|]. cbn [sq]. rewrite dense_app, IH. change (String c t) with (s1 c ++ t). rewrite dense_app. f_equal.
  destruct (ws4 c) eqn:E; [|reflexivity]. rewrite (dense_ws _ E). destruct (Ascii.eqb p " "); reflexivity.
Qed.
Lemma sq_last t : forall acc p, (ws4 p = true -> ends_ws acc) -> ws4 (slast p t) = true -> ends_ws (acc ++ sq p t).
Proof.
  induction t as [|c t IH]; intros acc p A L; cbn [sq slast] in *; [rewrite sapp_nil_r; now apply A|]. rewrite <- sapp_assoc. apply IH; [|exact L]. intros W. rewrite W.
  destruct (Ascii.eqb_spec p " ") as [->|]; [rewrite sapp_nil_r; now apply A|]. right. exists acc, " "%char. split; reflexivity.
Qed.
(** The text before a tag. *)
Lemma text_tag t : forall o p, sforall plain3 t = true -> (ws4 p = true -> o = "") ->
  exists t', dense t' = dense t /\ sfold mstep (t ++ "<") (M o false false p) = M (o ++ t' ++ "<") true false "<".
Proof.
  intros o p H Hp. rewrite sfold_app, text_fold by exact H. cbn [sfold]. unfold mstep. cbn [Ascii.eqb Bool.eqb negb andb m_str m_prev m_out DQ].
  destruct (ws3 (slast p t) && negb (String.eqb (o ++ sq p t) "")) eqn:E.
  - apply andb_true_iff in E. destruct E as [E1 E2]. apply negb_true_iff, String.eqb_neq in E2.
    assert (Q : ends_ws (sq p t)) by (apply (sq_last t "" p); [intros _; now left|now apply ws3_4]).
    destruct Q as [Q|(r & w & Q & Ww)].
    + (* nothing was pushed: then the state is the initial one *)
      exists "". rewrite Q in E2. rewrite sapp_nil_r in E2. split; [rewrite <- (sq_dense t p), Q; reflexivity|].
      exfalso. assert (W : ws4 p = true).
      { clear -Q E1. apply ws3_4 in E1. destruct t as [|c t]; [exact E1|]. cbn [sq] in Q. destruct (ws4 c); [|destruct (sq c t); discriminate Q].
        destruct (Ascii.eqb_spec p " ") as [->|]; [reflexivity|discriminate Q]. }
      apply E2. now apply Hp.
    + exists r. rewrite Q. rewrite <- sapp_assoc, spop_app. split.
      * rewrite <- (sq_dense t p), Q, dense_app, (dense_ws _ Ww). now rewrite sapp_nil_r.
      * unfold mpush. now rewrite sapp_assoc.
  - exists (sq p t). split; [apply sq_dense|]. unfold mpush. now rewrite sapp_assoc.
Qed.
Lemma doc_fold l : forall o p, Forall piece_ok l -> (ws4 p = true -> o = "") ->
  exists l', Forall2 (fun a b => dense (fst a) = dense (fst b) /\ snd a = snd b) l' l /\ m_out (sfold mstep (doc l) (M o false false p)) = o ++ doc l'.
Proof.
  induction l as [|[t b] l IH]; intros o p F Hp; [exists []; split; [constructor|cbn; now rewrite sapp_nil_r]|].
  inversion F as [|? ? [T B] F']; subst. cbn [fst snd] in *.
  destruct (text_tag t o p T Hp) as (t' & D & E).
  assert (S : doc ((t, b) :: l) = (t ++ "<") ++ b ++ ">" ++ doc l) by (unfold doc; cbn [map sconcat fold_right fst snd]; now rewrite !sapp_assoc).
  rewrite S, sfold_app, E, sfold_app. destruct (body_fold b B (o ++ t' ++ "<") "<") as [q ->]. rewrite sfold_app.
  change (sfold mstep ">" (M ((o ++ t' ++ "<") ++ b) true false q)) with (M (((o ++ t' ++ "<") ++ b) ++ ">") false false ">").
  destruct (IH (((o ++ t' ++ "<") ++ b) ++ ">") ">"%char F' ltac:(discriminate)) as (l' & G & K). exists ((t', b) :: l'). split; [constructor; auto|].
  rewrite K. unfold doc. cbn [map sconcat fold_right fst snd]. now rewrite !sapp_assoc.
Qed.
Lemma minimize_tags l : Forall piece_ok l -> exists l', Forall2 (fun a b => dense (fst a) = dense (fst b) /\ snd a = snd b) l' l /\ minimize_xml (doc l) = doc l'.
Proof. intros F. apply (doc_fold l "" " " F). reflexivity. Qed.

(** ** Size analysis *)
Lemma slide_not_media p : starts_with "ppt/slides/slide" p = true -> starts_with "ppt/media/" p = false.
Proof.
  intros H. destruct p as [|a1 p]; [discriminate|]. cbn [starts_with] in *. destruct (Ascii.eqb "p" a1); [|reflexivity]. cbn [andb] in *.
  destruct p as [|a2 p]; [reflexivity|]. cbn [starts_with] in *. destruct (Ascii.eqb "p" a2); [|reflexivity]. cbn [andb] in *.
  destruct p as [|a3 p]; [reflexivity|]. cbn [starts_with] in *. destruct (Ascii.eqb "t" a3); [|reflexivity]. cbn [andb] in *.
  destruct p as [|a4 p]; [reflexivity|]. cbn [starts_with] in *. destruct (Ascii.eqb "/" a4); [|reflexivity]. cbn [andb] in *.
  destruct p as [|a5 p]; [reflexivity|]. cbn [starts_with] in *. destruct (Ascii.eqb_spec "s" a5) as [<-|]; [reflexivity|discriminate].
Qed.
Lemma analyze_fold l : forall a, fold_left astep l a =
  Analysis (a_images a + sum_of an_image l) (a_xml a + sum_of an_xml l) (a_other a + sum_of an_other l)
    (a_image_count a + count an_image l) (a_slide_count a + count a_slide l) (a_media_count a + count a_medium l).
Proof.
  induction l as [|[p d] l IH]; intros a; [destruct a; cbn; now rewrite !Nat.add_0_r|]. cbn [fold_left]. rewrite IH. clear IH.
  unfold sum_of, count, total. cbn [List.filter fst].
  assert (CO : an_other p = negb (an_image p) && negb (an_xml p)) by reflexivity.
  assert (CM : a_medium p = starts_with "ppt/media/" p && negb (an_image p)) by reflexivity.
  assert (CI : an_image p = starts_with "ppt/media/" p && image_name p) by reflexivity.
  assert (CX : an_xml p = negb (starts_with "ppt/media/" p) && (ends_with ".xml" p || ends_with ".rels" p)) by reflexivity.
  assert (CS : a_slide p = starts_with "ppt/slides/slide" p && ends_with ".xml" p) by reflexivity.
  assert (NM := slide_not_media p).
  rewrite CO, CM, CI, CX, CS. unfold astep. cbn [fst snd].
  destruct (starts_with "ppt/media/" p).
  - destruct (starts_with "ppt/slides/slide" p); [specialize (NM eq_refl); discriminate|]. cbn [andb negb].
    destruct (image_name p); cbn [andb negb a_images a_xml a_other a_image_count a_slide_count a_media_count map list_sum fold_right length snd]; f_equal; unfold list_sum; cbn [fold_right]; lia.
  - cbn [andb negb]. destruct (ends_with ".xml" p); [|rewrite andb_false_r]; cbn [orb].
    + destruct (starts_with "ppt/slides/slide" p); cbn [andb negb a_images a_xml a_other a_image_count a_slide_count a_media_count map list_sum fold_right length snd]; f_equal; unfold list_sum; cbn [fold_right]; lia.
    + destruct (ends_with ".rels" p); cbn [andb negb a_images a_xml a_other a_image_count a_slide_count a_media_count map list_sum fold_right length snd]; f_equal; unfold list_sum; cbn [fold_right]; lia.
Qed.
Lemma sum_split l : total l = sum_of an_image l + sum_of an_xml l + sum_of an_other l.
Proof.
  induction l as [|[p d] l IH]; [reflexivity|]. unfold sum_of in *. cbn [List.filter fst].
  assert (CO : an_other p = negb (an_image p) && negb (an_xml p)) by reflexivity.
  assert (X : an_image p = true -> an_xml p = false) by (unfold an_image, an_xml; destruct (starts_with "ppt/media/" p); [reflexivity|discriminate]).
  rewrite CO. change (total ((p, d) :: l)) with (String.length d + total l).
  destruct (an_image p); [rewrite (X eq_refl); cbn [negb andb]|destruct (an_xml p); cbn [negb andb]];
  match goal with |- context [total ((p, d) :: ?k)] => change (total ((p, d) :: k)) with (String.length d + total k) end; lia.
Qed.
Lemma media_split l : count (starts_with "ppt/media/") l = count an_image l + count a_medium l.
Proof.
  induction l as [|[p d] l IH]; [reflexivity|]. unfold count in *. cbn [List.filter fst].
  assert (CM : a_medium p = starts_with "ppt/media/" p && negb (an_image p)) by reflexivity.
  assert (X : an_image p = true -> starts_with "ppt/media/" p = true) by (unfold an_image; rewrite andb_true_iff; tauto).
  rewrite CM. destruct (an_image p); [rewrite (X eq_refl)|destruct (starts_with "ppt/media/" p)]; cbn [andb negb length]; lia.
Qed.
Lemma analyze_eq l : analyze l = Analysis (sum_of an_image l) (sum_of an_xml l) (sum_of an_other l) (count an_image l) (count a_slide l) (count a_medium l).
Proof. unfold analyze. rewrite analyze_fold. reflexivity. Qed.
Lemma perm_filter (f : string * string -> bool) l l' : Permutation l l' -> Permutation (List.filter f l) (List.filter f l').
Proof.
  induction 1 as [|x l l' H IH|x y l|l l' l'' H1 IH1 H2 IH2]; cbn [List.filter]; [constructor|destruct (f x); [now constructor|exact IH]| |now transitivity (List.filter f l')].
  destruct (f y), (f x); try reflexivity. apply perm_swap.
Qed.
Lemma perm_total l l' : Permutation l l' -> total l = total l'.
Proof. unfold total, list_sum. induction 1; cbn [map fold_right]; lia. Qed.
Lemma analyze_perm l l' : Permutation l l' -> analyze l = analyze l'.
Proof.
  intros H. rewrite !analyze_eq. unfold sum_of, count.
  assert (L : forall f, length (List.filter (fun e : string * string => f (fst e)) l) = length (List.filter (fun e : string * string => f (fst e)) l')) by (intros f; apply Permutation_length, perm_filter, H).
  assert (T : forall f, total (List.filter (fun e : string * string => f (fst e)) l) = total (List.filter (fun e : string * string => f (fst e)) l')) by (intros f; apply perm_total, perm_filter, H).
  now rewrite !T, !L.
Qed.

(** ** Media *)
Section MEDIA.
  Context (lossy : string -> string).
  Lemma referenced_iff p m : referenced lossy p m = true <-> exists s c, p !! s = Some c /\ is_slide s = true /\ refers (lossy c) m = true.
  Proof.
    unfold referenced. rewrite existsb_exists. split.
    - intros ([s c] & I & H). cbn [fst snd] in H. apply andb_true_iff in H. exists s, c. split; [|exact H]. apply elem_of_map_to_list. now apply elem_of_list_In.
    - intros (s & c & I & H). exists (s, c). split; [apply elem_of_list_In; now apply elem_of_map_to_list|]. cbn [fst snd]. now apply andb_true_iff.
  Qed.
  Lemma remove_lookup p m : remove_unused_media lossy p !! m = if is_media m && negb (referenced lossy p m) then None else p !! m.
  Proof.
    unfold remove_unused_media. destruct (is_media m && negb (referenced lossy p m)) eqn:E.
    - apply map_filter_lookup_None. right. intros x _. cbn [fst]. rewrite E. discriminate.
    - destruct (p !! m) as [c|] eqn:P.
      + apply map_filter_lookup_Some. cbn. auto.
      + apply map_filter_lookup_None. now left.
  Qed.
End MEDIA.
(** Which parts each step removes. *)
Lemma props_lookup (p : package) m : remove_document_properties p !! m =
  if existsb (String.eqb m) ["docProps/core.xml"; "docProps/app.xml"; "docProps/custom.xml"; "docProps/thumbnail.jpeg"] then None else p !! m.
Proof.
  unfold remove_document_properties. cbn [existsb].
  repeat match goal with |- context [String.eqb m ?k] => destruct (String.eqb_spec m k) as [->|]; cbn [orb] end;
    rewrite ?lookup_delete_ne by congruence; rewrite ?lookup_delete; try reflexivity;
    repeat (rewrite lookup_delete_ne by congruence; rewrite ?lookup_delete; try reflexivity).
Qed.
Lemma notes_lookup (p : package) m : remove_notes_slides p !! m = if starts_with "ppt/notesSlides/" m then None else p !! m.
Proof.
  unfold remove_notes_slides. destruct (starts_with "ppt/notesSlides/" m) eqn:E.
  - apply map_filter_lookup_None. right. intros x _. cbn [fst]. congruence.
  - destruct (p !! m) as [c|] eqn:L; [apply map_filter_lookup_Some; split; [exact L|exact E]|apply map_filter_lookup_None; left; exact L].
Qed.
