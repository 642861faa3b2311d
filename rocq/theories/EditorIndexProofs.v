(** Lemmas: how the index parts rebuilt by the editor read. *)
From Coq Require Import String Ascii List Bool Arith NArith Lia FinFun.
From Verif Require Import Str StrRefl XmlSpec XmlProofs XmlTpl OpcSpec GenModel GenProofs PresProofs TypesProofs EditorModel.
Import ListNotations.
Open Scope string_scope.

(** ** Content types *)

Definition ed_types_head : list tpl :=
  [nlT; defT [Lit "rels"] [Lit "application/vnd.openxmlformats-package.relationships+xml"];
   nlT; defT [Lit "xml"] [Lit "application/xml"];
   nlT; overT [Lit "/ppt/presentation.xml"] [Lit "application/vnd.openxmlformats-officedocument.presentationml.presentation.main+xml"]].
Definition ed_types_tail : list tpl :=
  [nlT; overT [Lit "/ppt/slideLayouts/slideLayout1.xml"] [Lit "application/vnd.openxmlformats-officedocument.presentationml.slideLayout+xml"];
   nlT; overT [Lit "/ppt/slideMasters/slideMaster1.xml"] [Lit "application/vnd.openxmlformats-officedocument.presentationml.slideMaster+xml"];
   nlT; overT [Lit "/ppt/theme/theme1.xml"] [Lit "application/vnd.openxmlformats-officedocument.theme+xml"];
   nlT; overT [Lit "/docProps/core.xml"] [Lit "application/vnd.openxmlformats-package.core-properties+xml"];
   nlT; overT [Lit "/docProps/app.xml"] [Lit "application/vnd.openxmlformats-officedocument.extended-properties+xml"]; nlT].
Definition ed_types_body (n : nat) : list tpl :=
  (ed_types_head ++ flat_map (numT "/ppt/slides/slide" ".xml" slide_type) (seq 1 n) ++ ed_types_tail)%list.

Lemma rebuilt_types_tpl n : rebuilt_content_types n = decl ++ nl ++ tstr (TE "Types" xmlns_types (ed_types_body n)).
Proof.
  rewrite tstr_TE. unfold telem_open, ed_types_body. rewrite !tstrs_app, <- slide_overrides_tpl.
  unfold rebuilt_content_types. generalize (slide_overrides n). intros X.
  unfold ed_types_head, ed_types_tail, xmlns_types, nlT, defT, overT. tstr_eq.
Qed.
Lemma toks_ed_types n : toks (ed_types_body n).
Proof.
  unfold ed_types_body, ed_types_head, ed_types_tail. toks_apps; [|apply toks_nums; reflexivity|];
    unfold nlT, defT, overT; toks_solve.
Qed.
Lemma rebuilt_types_read n : exists defaults overrides,
  types_of (rebuilt_content_types n) = Some (defaults, overrides) /\
  map fst (filter (fun o => String.eqb (snd o) slide_type) overrides) = map (fun n => "/ppt/slides/slide" ++ decn n ++ ".xml") (seq 1 n).
Proof.
  rewrite rebuilt_types_tpl, types_of_tpl by apply toks_ed_types. do 2 eexists. split; [reflexivity|].
  unfold ed_types_body. rewrite !overrides_app, nums_overrides, !filter_app, !map_app.
  replace (filter _ (overrides_in ed_types_head)) with (@nil (string * string)) by (vm_compute; reflexivity).
  replace (filter _ (overrides_in ed_types_tail)) with (@nil (string * string)) by (vm_compute; reflexivity).
  cbn [map app]. rewrite app_nil_r. generalize (seq 1 n). induction l as [|i l IH]; [reflexivity|].
  cbn [map filter snd]. rewrite String.eqb_refl. cbn [map fst]. now rewrite IH.
Qed.

(** ** presentation.xml *)

Definition ed_pres_body (n : nat) (notes handout : bool) : list tpl :=
  ([nlT; TE "p:sldMasterIdLst" [] [nlT; TS "p:sldMasterId" [("id", [Lit "2147483648"]); ("r:id", [Lit "rId1"])]; nlT]]
  ++ (if notes then [nlT; TE "p:notesMasterIdLst" [] [nlT; TS "p:notesMasterId" [("id", [Lit "2147483650"]); ("r:id", [Lit "rId6"])]; nlT]] else [])
  ++ (if handout then [nlT; TE "p:handoutMasterIdLst" [] [nlT; TS "p:handoutMasterId" [("id", [Lit "2147483651"]); ("r:id", [Lit "rId"; Lit (decn (if notes then 7 else 6))])]; nlT]] else [])
  ++ [nlT; TE "p:sldIdLst" [] (flat_map (sldIdT notes handout) (seq 1 n) ++ [nlT])]
  ++ [nlT; TS "p:sldSz" [("cx", [Lit "9144000"]); ("cy", [Lit "6858000"]); ("type", [Lit "screen4x3"])];
      nlT; TS "p:notesSz" [("cx", [Lit "6858000"]); ("cy", [Lit "9144000"])]; nlT])%list.

Lemma rebuilt_pres_tpl n notes handout :
  rebuilt_presentation_xml n notes handout = decl ++ nl ++ tstr (TE "p:presentation" pres_attrs (ed_pres_body n notes handout)).
Proof.
  rewrite tstr_TE. unfold telem_open, ed_pres_body. rewrite !tstrs_app.
  rewrite (tstrs_cons nlT [TE "p:sldIdLst" _ _]), (tstrs_cons (TE "p:sldIdLst" _ _) []), (tstr_TE "p:sldIdLst").
  unfold telem_open. rewrite tstrs_app, tstrs_flat_map. unfold rebuilt_presentation_xml.
  rewrite (sconcat_ext (rebuilt_sld_id notes handout) (fun i => tstrs (sldIdT notes handout i))).
  2:{ intros i _. unfold rebuilt_sld_id, sldIdT. tstr_eq. }
  set (X := sconcat _). generalize (decn (if notes then 7 else 6)). intros d1. clearbody X. unfold pres_attrs, nlT.
  destruct notes, handout; tstr_eq.
Qed.
Lemma toks_ed_pres n notes handout : toks (ed_pres_body n notes handout).
Proof.
  assert (H : toks (flat_map (sldIdT notes handout) (seq 1 n) ++ [nlT])).
  { apply toks_app. split; [apply toks_flat_map; intros i _; unfold sldIdT|unfold nlT]; toks_solve. }
  unfold ed_pres_body. apply toks_app_i; [unfold nlT; toks_solve|]. apply toks_app_i; [destruct notes; unfold nlT; toks_solve|].
  apply toks_app_i; [destruct handout; unfold nlT; toks_solve|]. apply toks_app_i.
  - cbn [toks]. split; [unfold nlT; toks_solve|]. split; [|exact I]. apply tok_TE; [reflexivity|reflexivity|exact H].
  - unfold nlT. toks_solve.
Qed.

Lemma rebuilt_pres_read n notes handout : id_list (rebuilt_presentation_xml n notes handout) "p:sldIdLst" "p:sldId" = Some (sld_ids n).
Proof.
  unfold id_list. rewrite rebuilt_pres_tpl, tpl_read; [|reflexivity|reflexivity|apply tok_TE; [reflexivity|vm_compute; reflexivity|apply toks_ed_pres]].
  rewrite named_merge. f_equal. unfold ed_pres_body. rewrite !tsnodes_app, !named_app.
  assert (Q1 : forall Q, named "p:sldIdLst" (tsnodes [nlT; TE "p:sldIdLst" [] Q]) =
                [Elem "p:sldIdLst" [] (merge_text (tsnodes Q))]) by reflexivity.
  rewrite Q1.
  match goal with |- context [(?A ++ ?B ++ ?C ++ [?X] ++ ?D)%list] =>
    replace A with (@nil node) by reflexivity;
    replace B with (@nil node) by (destruct notes; reflexivity);
    replace C with (@nil node) by (destruct handout; reflexivity);
    replace D with (@nil node) by reflexivity end.
  cbn [app flat_map children]. rewrite app_nil_r, named_merge, tsnodes_app, named_app, map_app, sldIdT_named.
  change (named "p:sldId" (tsnodes [nlT])) with (@nil node). apply app_nil_r.
Qed.

(** ** The relationships *)

Lemma rebuilt_rels_read n notes handout : rels_of (create_presentation_rels_xml_full n notes handout) = Some (pres_rel_list n notes handout).
Proof. rewrite pres_rels_tpl, rels_of_tpl by apply toks_pres_body. now rewrite pres_body_rels. Qed.
Lemma pres_rel_nodup n notes handout : NoDup (map rel_id (pres_rel_list n notes handout)).
Proof. rewrite pres_rel_ids. apply NoDup_rids, seq_NoDup. Qed.

Lemma sld_ids_nth n i id r : nth_error (sld_ids n) i = Some (id, r) -> i < n /\ id = decn (255 + (i + 1)) /\ r = rid (i + 2).
Proof.
  unfold sld_ids. rewrite nth_error_map. destruct (nth_error (seq 1 n) i) as [k|] eqn:E; [|discriminate]. cbn [option_map].
  assert (L : i < n) by (rewrite <- (seq_length n 1); apply nth_error_Some; congruence).
  apply nth_error_nth with (d := 0) in E. rewrite seq_nth in E by exact L. intros H. injection H as <- <-. subst k.
  split; [exact L|]. split; f_equal; lia.
Qed.
Lemma sld_ids_nodup n : NoDup (map fst (sld_ids n)).
Proof.
  unfold sld_ids. rewrite map_map. cbn [fst]. apply Injective_map_NoDup; [|apply seq_NoDup].
  intros a b H. apply decn_inj in H. lia.
Qed.
Lemma pres_rel_slide n notes handout i : i < n ->
  lookup_rel (rid (i + 2)) (pres_rel_list n notes handout) =
  Some (Rel (rid (i + 2)) (doc_rel "slide") ("slides/slide" ++ decn (i + 1) ++ ".xml") "").
Proof.
  intros L. refine (lookup_rel_NoDup _ (Rel _ _ _ _) (pres_rel_nodup n notes handout) _).
  unfold pres_rel_list. right. apply in_or_app. left. apply in_map_iff. exists (i + 1).
  split; [|apply in_seq; lia]. unfold rid. now replace (i + 2) with (i + 1 + 1) by lia.
Qed.
