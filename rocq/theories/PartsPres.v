(** Proofs: the presentation part and the content types on their own. *)
From Coq Require Import String Ascii List Bool Arith NArith Lia.
From Verif Require Import Str StrRefl Num XmlSpec XmlProofs XmlTpl TplRead XmlTreeModel XmlTreeSpec XmlTreeProofs TplTree OpcSpec XmlPath PathRead GenProofs PresProofs RelsModel RelsSpec RelsProofs PartsModel PartsSpec PartsProofs.
Import ListNotations.
Open Scope nat_scope.
Open Scope string_scope.
Local Arguments String.append _ _ : simpl nomatch.

(** ** The presentation *)
Definition sldT (x : N * string) : list tpl := [nlT; TS "p:sldId" [("id", [Lit (dec (fst x))]); ("r:id", [Lit (snd x)])]].
Definition presR (p : pres) : tpl := (TE "p:presentation" [("xmlns:a", [Lit "http://schemas.openxmlformats.org/drawingml/2006/main"]); ("xmlns:r", [Lit "http://schemas.openxmlformats.org/officeDocument/2006/relationships"]); ("xmlns:p", [Lit "http://schemas.openxmlformats.org/presentationml/2006/main"]); ("saveSubsetFonts", [Lit "1"])] [TT [Lit "
"]; TE "p:sldMasterIdLst" [] [TT [Lit "
"]; TS "p:sldMasterId" [("id", [Lit "2147483648"]); ("r:id", [Lit (master_id p)])]; TT [Lit "
"]]; TT [Lit "
"]; TE "p:sldIdLst" [] ((flat_map sldT (p_slides p)) ++ [TT [Lit "
"]])%list; TT [Lit "
"]; TS "p:sldSz" [("cx", [Lit (dec (p_width p))]); ("cy", [Lit (dec (p_height p))]); ("type", [Lit "screen4x3"])]; TT [Lit "
"]; TS "p:notesSz" [("cx", [Lit (dec (p_height p))]); ("cy", [Lit (dec (p_width p))])]; TT [Lit "
"]]).
Lemma pres_tpl p : pres_xml p = decl ++ nl ++ tstr (presR p).
Proof.
  unfold pres_xml, presR. fold (master_id p). cbv zeta.
  replace (sconcat (map _ (p_slides p))) with (tstrs (flat_map sldT (p_slides p))).
  2:{ induction (p_slides p) as [|x l IH]; [reflexivity|]. cbn [flat_map map]. rewrite tstrs_app, IH, sconcat_cons. f_equal. unfold sldT, nlT. tstr_eq. }
  generalize (flat_map sldT (p_slides p)) as B. intros B. cbn [tstr map]. rewrite ?map_app, ?sconcat_app. fold (tstrs B). set (X := tstrs B). clearbody X. tstr_eq.
Qed.
Lemma sld_toks l : forallb (fun x => (fst x <=? u32_max)%N && as_value (snd x)) l = true -> toks (flat_map sldT l).
Proof.
  induction l as [|x l IH]; [easy|]. cbn [forallb flat_map]. intros H. apply andb_true_iff in H as [H1 H2]. apply andb_true_iff in H1 as [_ H1]. apply as_value_ok in H1. apply toks_app. split; [|now apply IH]. unfold sldT, nlT. toks_solve.
Qed.
Lemma master_value p : opt_ok as_value (p_master p) = true -> sforall plain_val (master_id p) = true.
Proof. unfold master_id. destruct (p_master p); [|reflexivity]. cbn. exact (as_value_ok _). Qed.
Lemma pres_read p : pres_ok p = true -> xml_read (pres_xml p) = Some (tnode (presR p)).
Proof.
  intros OK. unfold pres_ok in OK. apply andb_true_iff in OK as [OK _]. apply andb_true_iff in OK as [OK _]. apply andb_true_iff in OK as [O1 O2]. apply master_value in O2. apply sld_toks in O1.
  rewrite pres_tpl. unfold presR. apply (tpl_read nl); [reflexivity|reflexivity|]. apply tok_TE; [reflexivity|vm_compute; reflexivity|].
  cbn [toks]. repeat match goal with |- _ /\ _ => split end; try exact I; try (toks_solve; fail).
  apply tok_TE; [reflexivity|reflexivity|]. apply toks_app. split; [exact O1|]. toks_solve.
Qed.
Definition sldX (x : N * string) : xel := XE "p:sldId" "sldId" [("r:id", snd x); ("id", dec (fst x))] [] "".
Lemma sld_xts l : xts (flat_map sldT l ++ [TT [Lit nl]]) = map sldX l.
Proof.
  rewrite xts_app. change (xts [TT [Lit nl]]) with (@nil xel). rewrite app_nil_r. induction l as [|x l IH]; [reflexivity|]. cbn [flat_map map]. rewrite xts_app, IH. unfold sldT, sldX. cbn. unfold xattrs, vals. cbn. unfold vals. cbn. now rewrite !sapp_nil_r.
Qed.
Lemma pres_tree p : exists a m t1 t2, tree (tnode (presR p)) = Some (XE "p:presentation" "presentation" a
   [XE "p:sldMasterIdLst" "sldMasterIdLst" [] [XE "p:sldMasterId" "sldMasterId" [("r:id", master_id p); ("id", "2147483648")] [] ""] m;
    XE "p:sldIdLst" "sldIdLst" [] (map sldX (p_slides p)) t1;
    XE "p:sldSz" "sldSz" [("type", "screen4x3"); ("cy", dec (p_height p)); ("cx", dec (p_width p))] [] "";
    XE "p:notesSz" "notesSz" [("cy", dec (p_width p)); ("cx", dec (p_height p))] [] ""] t2).
Proof.
  unfold presR. rewrite tree_tnode. unfold xts. cbn [flat_map xt app]. fold (xts (flat_map sldT (p_slides p) ++ [TT [Lit nl]])). change (String "010" "") with nl. 
  match goal with |- context [flat_map xt (flat_map sldT (p_slides p) ++ ?b)] => change (flat_map xt (flat_map sldT (p_slides p) ++ b)) with (xts (flat_map sldT (p_slides p) ++ [TT [Lit nl]])) end.
  rewrite sld_xts. unfold xattrs, attrs_val. cbn [map fst snd filter is_xmlns negb rev app]. do 4 eexists. cbn. unfold vals. cbn [map pval sconcat fold_right]. rewrite !sapp_nil_r. reflexivity.
Qed.
Lemma sld_parsed l : forallb (fun x => (fst x <=? u32_max)%N && as_value (snd x)) l = true ->
  flat_map (fun e => match attr_of "id" e, attr_of "r:id" e with Some i, Some r => match parse_uint u32_max i with Some n => [(n, r)] | None => [] end | _, _ => [] end) (map sldX l) = l.
Proof.
  induction l as [|[n r] l IH]; [reflexivity|]. cbn [forallb map flat_map fst snd]. intros H. apply andb_true_iff in H as [H1 H2]. apply andb_true_iff in H1 as [H1 _]. apply N.leb_le in H1.
  rewrite (IH H2). unfold sldX at 1 2. cbn [attr_of attributes fst snd]. cbn. rewrite parse_uint_dec by exact H1. reflexivity.
Qed.
Definition deep := fix go (l : list xel) : list xel := match l with [] => [] | c :: l => (c :: descendants c ++ go l)%list end.
Lemma slds_deep l : deep (map sldX l) = map sldX l.
Proof. induction l as [|x l IH]; [reflexivity|]. cbn [map deep sldX descendants app]. f_equal. exact IH. Qed.
Lemma slds_kids l : filter (has_name "sldId") (map sldX l) = map sldX l.
Proof. induction l as [|x l IH]; [reflexivity|]. cbn [map filter]. change (has_name "sldId" (sldX x)) with true. cbn iota. f_equal. exact IH. Qed.
Lemma slds_other n l : String.eqb "sldId" n = false -> filter (has_name n) (map sldX l) = [].
Proof. intros H. induction l as [|x l IH]; [reflexivity|]. cbn [map filter]. change (has_name n (sldX x)) with (String.eqb "sldId" n). rewrite H. exact IH. Qed.
Lemma slds_find n l b : String.eqb "sldId" n = false -> find (has_name n) (map sldX l ++ b) = find (has_name n) b.
Proof. intros H. induction l as [|x l IH]; [reflexivity|]. cbn [map app find]. change (has_name n (sldX x)) with (String.eqb "sldId" n). rewrite H. exact IH. Qed.
Lemma pres_back p : pres_ok p = true -> pres_from (pres_xml p) = Some (Pres (p_slides p) (Some (master_id p)) None (p_width p) (p_height p)).
Proof.
  intros OK. pose proof (pres_read p OK) as R. unfold pres_from. unfold presR in R. cbn [tnode] in R. rewrite (parse_tree _ _ _ _ R).
  match type of R with _ = Some (Elem ?n ?a ?ks) => change (tree (Elem n a ks)) with (tree (tnode (presR p))) end. clear R.
  destruct (pres_tree p) as (a & m & t1 & t2 & E). rewrite E. clear E. unfold pres_ok in OK. apply andb_true_iff in OK as [OK O4]. apply andb_true_iff in OK as [OK O3]. apply andb_true_iff in OK as [O1 O2]. apply N.leb_le in O3, O4.
  rewrite find_all_descendants_spec, !find_descendant_spec. cbn [descendants app]. change (fix go (l : list xel) : list xel := match l with [] => [] | c :: l => (c :: descendants c ++ go l)%list end) with deep.
  rewrite slds_deep. 
  repeat (rewrite ?filter_app; cbn [filter]). rewrite slds_kids, !slds_other by reflexivity. cbn [has_name local_name String.eqb Ascii.eqb Bool.eqb app hd_error attr_of attributes].
  match goal with |- context [flat_map ?f (?a ++ [])] => rewrite (app_nil_r a) end. rewrite (sld_parsed _ O1). cbn. rewrite !parse_uint_dec by assumption. reflexivity.
Qed.
Lemma sld_named l b : named "p:sldId" (tsnodes (flat_map sldT l ++ [TT [Lit b]])) = map (fun x => Elem "p:sldId" [("id", dec (fst x)); ("r:id", snd x)] []) l.
Proof.
  rewrite tsnodes_app, named_app, named_text. change (named "p:sldId" (tsnodes [])) with (@nil node). rewrite app_nil_r.
  induction l as [|x l IH]; [reflexivity|]. cbn [flat_map map]. rewrite tsnodes_app, named_app, IH. unfold sldT, nlT. cbn. unfold vals. cbn. unfold vals. cbn. now rewrite !sapp_nil_r.
Qed.
Lemma pres_ids p : pres_ok p = true -> id_list (pres_xml p) "p:sldIdLst" "p:sldId" = Some (map (fun x => (dec (fst x), snd x)) (p_slides p))
  /\ id_list (pres_xml p) "p:sldMasterIdLst" "p:sldMasterId" = Some [("2147483648", master_id p)].
Proof.
  intros OK. unfold id_list. rewrite (pres_read p OK). unfold presR. cbn [tnode]. rewrite !named_merge. split; f_equal.
  - match goal with |- context [TE "p:sldIdLst" [] ?b] => generalize (eq_refl b); generalize b at 1 3 end. intros B EB.
    match goal with |- context [named "p:sldIdLst" (tsnodes ?l)] => change (named "p:sldIdLst" (tsnodes l)) with [Elem "p:sldIdLst" [] (merge_text (tsnodes B))] end.
    cbn [flat_map children app]. rewrite app_nil_r, named_merge, EB, sld_named, map_map. reflexivity.
  - match goal with |- context [TE "p:sldIdLst" [] ?b] => generalize b end. intros B.
    match goal with |- context [named "p:sldMasterIdLst" (tsnodes ?l)] => change (named "p:sldMasterIdLst" (tsnodes l)) with [tnode (TE "p:sldMasterIdLst" [] [TT [Lit nl]; TS "p:sldMasterId" [("id", [Lit "2147483648"]); ("r:id", [Lit (master_id p)])]; TT [Lit nl]])] end.
    cbn. unfold vals. cbn. now rewrite !sapp_nil_r.
Qed.
(** The ids a history of additions gives *)
Lemma next_slide_id n : (N.of_nat n < 4294967039)%N -> wadd u32_max (wadd u32_max 256 (N.of_nat n mod (u32_max + 1))) 1 = N.of_nat (257 + n).
Proof.
  intros B. unfold wadd. change (u32_max + 1)%N with 4294967296%N. rewrite (N.mod_small (N.of_nat n)) by lia. rewrite (N.mod_small (256 + N.of_nat n)) by lia. rewrite N.mod_small by lia. lia.
Qed.
Lemma add_all_slides rs : forall p, (N.of_nat (length (p_slides p) + length rs) <= 4294967039)%N ->
  fst (add_all p rs) = map (fun k => N.of_nat (257 + k)) (seq (length (p_slides p)) (length rs)) /\
  snd (add_all p rs) = Pres (p_slides p ++ combine (fst (add_all p rs)) rs) (p_master p) (p_theme p) (p_width p) (p_height p).
Proof.
  induction rs as [|r rs IH]; intros p B; [destruct p; cbn; now rewrite app_nil_r|]. cbn [add_all length seq map] in *. 
  remember (pres_add r p) as A eqn:EA. unfold pres_add in EA. 
  rewrite next_slide_id in EA by lia. subst A. 
  match goal with |- context [add_all ?q rs] => specialize (IH q); destruct (add_all q rs) as [l q'] end.
  cbn [p_slides p_master p_theme p_width p_height fst snd] in *. rewrite app_length in IH. cbn [length] in IH. destruct IH as [-> ->]; [lia|]. split; [f_equal; f_equal; f_equal; lia|].
  cbn [combine]. rewrite <- app_assoc. reflexivity.
Qed.

(** ** The relationships of the presentation *)
Lemma slides_rels l : forall i s, list_of (snd (fold_left (fun '(i, s) (x : N * string) => (S i, add_with_id (snd x) Slide ("slides/slide" ++ decn (i + 1) ++ ".xml") s)) l (i, s))) =
  (list_of s ++ map (fun '(k, x) => Relationship (snd x) Slide ("slides/slide" ++ decn (k + 1) ++ ".xml")) (combine (seq i (length l)) l))%list.
Proof.
  induction l as [|x l IH]; intros i s; [cbn; now rewrite app_nil_r|]. cbn [fold_left length seq combine map]. rewrite IH. cbn [add_with_id list_of]. rewrite <- app_assoc. reflexivity.
Qed.
Lemma own_rels p m t : own p m t -> list_of (pres_rels p) = (Relationship m SlideMaster "slideMasters/slideMaster1.xml" :: Relationship t Theme "theme/theme1.xml" ::
  map (fun '(k, x) => Relationship (snd x) Slide ("slides/slide" ++ decn (k + 1) ++ ".xml")) (combine (seq 0 (length (p_slides p))) (p_slides p))).
Proof.
  intros O. unfold pres_rels. cbv zeta. rewrite slides_rels. destruct O as [m t E1 E2|t E1 E2|E1 E2|n E1 E2 B]; rewrite E1, E2; try reflexivity.
  unfold add. cbn [snd list_of]. unfold add_with_id. cbn [list_of next_id rels_new app]. rewrite strip_rid, parse_uint_dec by (unfold u32_max; lia).
  replace (1 <=? n)%N with true by (symmetry; apply N.leb_le; lia). unfold wadd. rewrite N.mod_small by (unfold u32_max; lia). reflexivity.
Qed.
Lemma as_value_attr s : as_value s = true -> sforall plain_attr s = true.
Proof. apply sforall_weaken. intros c. destruct c as [[] [] [] [] [] [] [] []]; vm_compute; auto. Qed.
Lemma decn_attr n a b : sforall plain_attr a = true -> sforall plain_attr b = true -> sforall plain_attr (a ++ decn n ++ b) = true.
Proof.
  intros A B. rewrite !sforall_app, A, B. assert (D : sforall plain_attr (decn n) = true); [|now rewrite D].
  unfold decn. pose proof (dec_digits (N.of_nat n)) as D. revert D. apply sforall_weaken. intros c. destruct c as [[] [] [] [] [] [] [] []]; vm_compute; auto.
Qed.
Lemma pres_rels_read p m t : own p m t -> as_value m = true -> as_value t = true -> forallb (fun x => as_value (snd x)) (p_slides p) = true ->
  rels_of (rels_xml (pres_rels p)) = Some (wanted_rels m t (map snd (p_slides p))).
Proof.
  intros O M T S. rewrite rels_spec_read.
  2:{ rewrite (own_rels p m t O). constructor; [|constructor].
      - repeat split; try reflexivity. now apply as_value_attr.
      - repeat split; try reflexivity. now apply as_value_attr.
      - apply Forall_forall. intros r H. apply in_map_iff in H as ([k x] & <- & H). apply in_combine_r in H. rewrite forallb_forall in S. specialize (S _ H). repeat split; cbn [id target].
        + now apply as_value_attr.
        + now apply decn_attr. }
  rewrite (own_rels p m t O). f_equal. unfold wanted_rels. cbn [map id RelsModel.rel_type target uri]. f_equal. f_equal. match goal with |- map ?f (map ?g _) = _ => enough (H : forall l i, map f (map g (combine (seq i (length l)) l)) = number_slides i (map snd l)) by exact (H _ 0) end. clear. induction l as [|x l IH]; intros i; [reflexivity|].
  cbn [length seq combine map number_slides]. rewrite <- IH. cbn [id target RelsModel.rel_type uri]. replace (i + 1) with (S i) by lia. reflexivity.
Qed.
Lemma lookup_only i l r : NoDup (map rel_id l) -> In r l -> rel_id r = i -> lookup_rel i l = Some r.
Proof.
  intros D H E. unfold lookup_rel. induction l as [|x l IH]; [easy|]. cbn [map] in D. inversion D as [|? ? N D']; subst. cbn [filter]. destruct (String.eqb_spec (rel_id x) (rel_id r)) as [Q|Q].
  - assert (x = r). { destruct H as [H|H]; [exact H|]. exfalso. apply N. rewrite Q. now apply in_map. } subst x.
    replace (filter _ l) with (@nil rel); [reflexivity|]. symmetry. clear - N. induction l as [|y l IH]; [reflexivity|]. cbn [filter map] in *. destruct (String.eqb_spec (rel_id y) (rel_id r)); [exfalso; apply N; left; auto|]. apply IH. intros H; apply N; now right.
  - destruct H as [->|H]; [easy|]. now apply IH.
Qed.
Lemma wanted_ids m t l : map rel_id (wanted_rels m t l) = m :: t :: l.
Proof. unfold wanted_rels. cbn [map rel_id]. f_equal. f_equal. generalize 0. induction l as [|x l IH]; intros i; [reflexivity|]. cbn. f_equal. apply IH. Qed.
Lemma number_nth l r : forall i k, nth_error l k = Some r -> In (Rel r (doc_rel "slide") ("slides/slide" ++ decn (S (i + k)) ++ ".xml") "") (number_slides i l).
Proof.
  induction l as [|x l IH]; intros i [|k] H; try easy; cbn [nth_error number_slides] in *.
  - inversion H; subst. left. now rewrite Nat.add_0_r.
  - right. replace (i + S k) with (S i + k) by lia. now apply IH.
Qed.
Lemma slides_resolve p m t : own p m t -> as_value m = true -> as_value t = true -> forallb (fun x => as_value (snd x)) (p_slides p) = true ->
  NoDup (m :: t :: map snd (p_slides p)) ->
  exists l, rels_of (rels_xml (pres_rels p)) = Some l /\ lookup_rel m l = Some (Rel m (doc_rel "slideMaster") "slideMasters/slideMaster1.xml" "") /\
    lookup_rel t l = Some (Rel t (doc_rel "theme") "theme/theme1.xml" "") /\
    forall k r, nth_error (map snd (p_slides p)) k = Some r -> lookup_rel r l = Some (Rel r (doc_rel "slide") ("slides/slide" ++ decn (S k) ++ ".xml") "").
Proof.
  intros O M T S D. exists (wanted_rels m t (map snd (p_slides p))). split; [now apply pres_rels_read|]. rewrite <- (wanted_ids m t) in D.
  split; [|split].
  - apply lookup_only; [exact D| |reflexivity]. now left.
  - apply lookup_only; [exact D| |reflexivity]. right. now left.
  - intros k r H. apply lookup_only; [exact D| |reflexivity]. right. right. now apply (number_nth _ _ 0).
Qed.
Lemma combine_firsts {A B} (a : list A) (b : list B) : length a = length b -> map fst (combine a b) = a /\ map snd (combine a b) = b.
Proof. revert b. induction a as [|x a IH]; intros [|y b] H; try easy. cbn in *. destruct (IH b) as [-> ->]; [lia|easy]. Qed.
Lemma combine_map_l {A B C} (f : A -> C) (a : list A) : forall b : list B, map (fun x => (f (fst x), snd x)) (combine a b) = combine (map f a) b.
Proof. induction a as [|x a IH]; intros [|y b]; try easy. cbn. f_equal. apply IH. Qed.
Lemma new_ids rs : (N.of_nat (length rs) <= 4294967039)%N -> forallb as_value rs = true ->
  let '(ids, p) := add_all pres_new rs in
  ids = map (fun k => N.of_nat (257 + k)) (seq 0 (length rs)) /\ NoDup ids /\ id_list (pres_xml p) "p:sldIdLst" "p:sldId" = Some (combine (map dec ids) rs)
  /\ (exists q, pres_from (pres_xml p) = Some q /\ p_slides q = combine ids rs)
  /\ map snd (p_slides p) = rs /\ own p "rId1" "rId2".
Proof.
  intros B V. destruct (add_all_slides rs pres_new) as [E1 E2]; [exact B|]. destruct (add_all pres_new rs) as [ids p]. cbn [fst snd pres_new p_slides length app p_master p_theme p_width p_height] in *. subst ids p.
  set (ids := map _ _).
  assert (L : length ids = length rs) by (unfold ids; now rewrite map_length, seq_length).
  assert (OK : pres_ok (Pres (combine ids rs) None None 9144000 6858000) = true).
  { unfold pres_ok. cbn [p_slides p_master p_width p_height opt_ok]. rewrite !andb_true_r.
    apply forallb_forall. intros [i r] H. apply andb_true_iff. cbn [fst snd]. split.
    - apply in_combine_l in H. unfold ids in H. apply in_map_iff in H as (k & <- & H). apply in_seq in H. apply N.leb_le. unfold u32_max. lia.
    - apply in_combine_r in H. rewrite forallb_forall in V. now apply V. }
  repeat split.
  - unfold ids. apply FinFun.Injective_map_NoDup; [intros a b H; lia|apply seq_NoDup].
  - rewrite (proj1 (pres_ids _ OK)). cbn [p_slides]. f_equal. apply combine_map_l.
  - eexists. split; [apply (pres_back _ OK)|reflexivity].
  - cbn [p_slides]. now apply combine_firsts.
  - now apply own_none.
Qed.
(** A part whose slide is called rId2: the theme has that id too. *)
Lemma rels_clash : exists rs, NoDup rs /\ exists l, rels_of (rels_xml (pres_rels (snd (add_all pres_new rs)))) = Some l /\ exists r, In r rs /\ lookup_rel r l = None
  /\ option_map target (get r (pres_rels (snd (add_all pres_new rs)))) = Some "theme/theme1.xml".
Proof.
  exists ["rId2"]. split; [constructor; [easy|constructor]|]. eexists. split; [vm_compute; reflexivity|]. exists "rId2". split; [now left|]. split; vm_compute; reflexivity.
Qed.
(** A part read from a text whose only slide has the number 258 *)
Lemma id_repeated : exists p q, pres_ok p = true /\ pres_from (pres_xml p) = Some q /\ exists r, In (fst (pres_add r q)) (map fst (p_slides q)).
Proof.
  exists (Pres [(258%N, "rId5")] (Some "rId1") None 9144000 6858000). eexists. split; [vm_compute; reflexivity|]. split; [apply pres_back; vm_compute; reflexivity|]. exists "rId6". vm_compute. now left.
Qed.
(** The theme's relationship is not in the part's text. *)
Lemma theme_lost : exists p q, pres_ok p = true /\ pres_from (pres_xml p) = Some q /\ p_theme p <> p_theme q.
Proof. exists (set_theme "rId9" pres_new). eexists. split; [vm_compute; reflexivity|]. split; [apply pres_back; vm_compute; reflexivity|]. discriminate. Qed.
Lemma some_pres : pres_ok (set_dimensions 12192000 6858000 (set_theme "rId8" (set_master "rId1" (snd (add_all pres_new ["rId2"; "rId3"]))))) = true /\ NoDup ["rId1"; "rId8"; "rId2"; "rId3"].
Proof. split; [vm_compute; reflexivity|]. repeat constructor; cbn; intuition discriminate. Qed.

(** ** Content types *)
Definition sp2 : string := "
  ".
Definition defT (x : string * string) : tpl := TS "Default" [("Extension", [Lit (fst x)]); ("ContentType", [Lit (snd x)])].
Definition ovrT (x : string * string) : tpl := TS "Override" [("PartName", [Lit (fst x)]); ("ContentType", [Lit (snd x)])].
Definition ctypesR (c : ctypes) : tpl := TE "Types" [("xmlns", [Lit "http://schemas.openxmlformats.org/package/2006/content-types"])]
  ([TT [Lit sp2]] ++ joinT sp2 (map defT (t_defaults c)) ++ [TT [Lit sp2]] ++ joinT sp2 (map ovrT (t_overrides c)) ++ [TT [Lit nl]])%list.
Lemma ctypes_tpl c : ctypes_xml c = decl ++ nl ++ tstr (ctypesR c).
Proof.
  unfold ctypes_xml. cbv zeta.
  assert (E1 : map (fun x => "<Default Extension=""" ++ fst x ++ """ ContentType=""" ++ snd x ++ """/>") (t_defaults c) = map tstr (map defT (t_defaults c))) by (rewrite map_map; apply map_ext; intros x; unfold defT; tstr_eq).
  assert (E2 : map (fun x => "<Override PartName=""" ++ fst x ++ """ ContentType=""" ++ snd x ++ """/>") (t_overrides c) = map tstr (map ovrT (t_overrides c))) by (rewrite map_map; apply map_ext; intros x; unfold ovrT; tstr_eq).
  rewrite E1, E2. rewrite <- !join_str. unfold ctypesR, sp2.
  match goal with |- context [joinT ?s (map defT ?l)] => generalize (joinT s (map defT l)) as A end. match goal with |- context [joinT ?s (map ovrT ?l)] => generalize (joinT s (map ovrT l)) as B end. intros B A.
  rewrite tstr_TE. rewrite !tstrs_app. set (X := tstrs A). set (Y := tstrs B). clearbody X Y. tstr_eq.
Qed.
Lemma entries_toks (f : string * string -> tpl) l : (forall x, entry_ok x = true -> tok (f x)) -> forallb entry_ok l = true -> toks (map f l).
Proof. intros F. induction l as [|x l IH]; [easy|]. cbn [forallb map]. intros H. apply andb_true_iff in H as [H1 H2]. split; [now apply F|now apply IH]. Qed.
Lemma ctypes_read c : ctypes_ok c = true -> types_of (ctypes_xml c) = Some (t_defaults c, t_overrides c).
Proof.
  intros OK. apply andb_true_iff in OK as [O1 O2]. unfold types_of. rewrite ctypes_tpl. unfold ctypesR. rewrite (tpl_read nl); [|reflexivity|reflexivity|].
  - assert (D : forall m n (f : string * string -> tpl) l, (forall x, tname (f x) = Some n) -> String.eqb n m = false -> named m (tsnodes (map f l)) = []).
    { intros m n f l F NE. induction l as [|x l IH]; [reflexivity|]. cbn [map]. erewrite named_cons by apply F. now rewrite NE. }
    rewrite !named_merge, !tsnodes_app, !named_app, !join_named. assert (TX : forall m s, named m (tsnodes [TT [Lit s]]) = []) by reflexivity. rewrite !TX. cbn [app].
    rewrite (named_all "Default" defT), (named_all "Override" ovrT) by reflexivity. rewrite (D "Override" "Default"), (D "Default" "Override") by reflexivity. cbn [app].
    rewrite !app_nil_r, !map_map. f_equal. f_equal; (etransitivity; [|apply map_id]); apply map_ext; intros [a b]; cbn; unfold vals; cbn; now rewrite !sapp_nil_r.
  - apply tok_TE; [reflexivity|reflexivity|]. 
    assert (V : forall x, entry_ok x = true -> tok (defT x) /\ tok (ovrT x)).
    { intros [a b] H. apply andb_true_iff in H as [H1 H2]. apply as_value_ok in H1, H2. cbn [fst snd] in *. unfold defT, ovrT. cbn [fst snd]. split; cbn [tok]; (split; [reflexivity|]); unfold tattrs_ok; cbn [forallb fst snd pv_ok]; rewrite H1, H2; reflexivity. }
    repeat (apply toks_app; split); try (now split); apply join_toks; try reflexivity; apply entries_toks; try assumption; intros x H; now apply V.
Qed.
Lemma declared ks : forallb kind_ok ks = true -> types_of (ctypes_xml (fold_left declare ks ctypes_new)) = Some (t_defaults ctypes_new, map (fun k => (part_name k, media_type k)) ks).
Proof.
  intros H. assert (E : forall c, fold_left declare ks c = CTypes (t_defaults c) (t_overrides c ++ map (fun k => (part_name k, media_type k)) ks)).
  { clear H. induction ks as [|k ks IH]; intros c; [destruct c; cbn; now rewrite app_nil_r|]. cbn [fold_left map]. rewrite IH.
    replace (t_defaults (declare c k)) with (t_defaults c) by (destruct k; reflexivity). replace (t_overrides (declare c k)) with (t_overrides c ++ [(part_name k, media_type k)])%list by (destruct k; reflexivity). now rewrite <- app_assoc. }
  rewrite E. apply ctypes_read. unfold ctypes_ok. cbn [t_defaults t_overrides ctypes_new app]. apply andb_true_iff. split; [vm_compute; reflexivity|].
  apply forallb_forall. intros x X. apply in_map_iff in X as (k & <- & X). rewrite forallb_forall in H. specialize (H _ X).
  assert (P : forall a b n, as_value a = true -> as_value b = true -> as_value (a ++ decn n ++ b) = true).
  { intros a b n A B. unfold as_value in *. rewrite !sforall_app, A, B. rewrite andb_true_r. cbn [andb]. unfold decn. pose proof (dec_digits (N.of_nat n)) as D. revert D. apply sforall_weaken. intros ch. destruct ch as [[] [] [] [] [] [] [] []]; vm_compute; auto. }
  unfold entry_ok. cbn [fst snd]. destruct k; cbn [part_name media_type kind_ok] in *; try exact H; apply andb_true_iff; split; try (vm_compute; reflexivity); now apply P.
Qed.
Lemma types_forgotten : exists c, ctypes_ok c = true /\ t_overrides c <> [] /\ t_overrides (ctypes_from (ctypes_xml c)) = [].
Proof. exists (add_presentation ctypes_new). split; [vm_compute; reflexivity|]. split; [discriminate|reflexivity]. Qed.
Lemma types_raw : exists n t, text_ok n = true /\ text_ok t = true /\ types_of (ctypes_xml (add_override n t ctypes_new)) = None.
Proof. exists "/a&b.xml", "text/plain". split; [reflexivity|]. split; [reflexivity|]. vm_compute. reflexivity. Qed.
