(** Lemmas about the package-level XML of generated decks. *)
From Coq Require Import String Ascii List Bool Arith NArith Lia.
From Verif Require Import Str StrRefl EscapeModel EscapeProofs XmlSpec XmlProofs XmlTpl OpcSpec GenModel.
Import ListNotations.
Open Scope string_scope.

(** ** Generic facts *)

Lemma named_merge n l : named n (merge_text l) = named n l.
Proof.
  induction l as [|[m a k|s] l IH]; [reflexivity| |].
  - cbn [merge_text named filter is_named]. fold (named n (merge_text l)) (named n l). now rewrite IH.
  - cbn [named filter is_named]. fold (named n l). rewrite <- IH. cbn [merge_text].
    destruct (merge_text l) as [|[m a k|t] r]; [| |reflexivity]; destruct (String.eqb s ""); reflexivity.
Qed.

Lemma named_app n l1 l2 : named n (l1 ++ l2) = (named n l1 ++ named n l2)%list.
Proof. apply filter_app. Qed.

Lemma tstrs_flat_map {A} (f : A -> list tpl) l : tstrs (flat_map f l) = sconcat (map (fun x => tstrs (f x)) l).
Proof. induction l as [|x l IH]; [reflexivity|]. cbn [flat_map map]. rewrite tstrs_app, IH. reflexivity. Qed.

Lemma tsnodes_flat_map {A} (f : A -> list tpl) l : tsnodes (flat_map f l) = flat_map (fun x => tsnodes (f x)) l.
Proof. induction l as [|x l IH]; [reflexivity|]. cbn [flat_map]. rewrite tsnodes_app, IH. reflexivity. Qed.

Lemma toks_flat_map {A} (f : A -> list tpl) l : (forall x, In x l -> toks (f x)) -> toks (flat_map f l).
Proof. induction l as [|x l IH]; intros H; [exact I|]. cbn [flat_map]. apply toks_app. split; [apply H; now left|]. apply IH. intros y Hy. apply H. now right. Qed.

Lemma toks_app_i l1 l2 : toks l1 -> toks l2 -> toks (l1 ++ l2).
Proof. intros. apply toks_app. now split. Qed.

Lemma sconcat_ext {A} (f g : A -> string) l : (forall x, In x l -> f x = g x) -> sconcat (map f l) = sconcat (map g l).
Proof. intros H. f_equal. apply map_ext_in. exact H. Qed.

Lemma named_flat_map {A} n (f : A -> list node) l : named n (flat_map f l) = flat_map (fun x => named n (f x)) l.
Proof. induction l as [|x l IH]; [reflexivity|]. cbn [flat_map]. now rewrite named_app, IH. Qed.

Lemma flat_map_sing {A B} (f : A -> B) l : flat_map (fun x => [f x]) l = map f l.
Proof. induction l; simpl; congruence. Qed.

Lemma sapp_cons c s t : String c s ++ t = String c (s ++ t).
Proof. reflexivity. Qed.
Lemma sapp_nil_l t : "" ++ t = t.
Proof. reflexivity. Qed.

(** Solve [tok]/[toks] goals over templates made of literals and numbers. *)
Ltac tok_leaf :=
  lazymatch goal with
  | |- sforall plain_val (decn _) = true => apply decn_val
  | |- sforall plain_val (dec _) = true => apply dec_val
  | |- sforall plain_text (decn _) && _ = true => apply decn_txt
  | |- sforall plain_text (dec _) && _ = true => apply dec_txt
  | |- sforall plain_text (decn ?n) = true => exact (proj1 (andb_prop _ _ (decn_txt n)))
  | |- sforall not_cr (decn ?n) = true => exact (proj2 (andb_prop _ _ (decn_txt n)))
  | |- sforall plain_text (dec ?n) = true => exact (proj1 (andb_prop _ _ (dec_txt n)))
  | |- sforall not_cr (dec ?n) = true => exact (proj2 (andb_prop _ _ (dec_txt n)))
  | _ => first [assumption | vm_compute; reflexivity]
  end.
Ltac pieces_ok :=
  cbn [forallb pv_ok pt_ok andb fst snd];
  repeat lazymatch goal with |- (_ && _) = true => apply andb_true_iff; split end;
  try tok_leaf.
Ltac toks_solve :=
  cbn [toks tok];
  repeat match goal with
         | |- _ /\ _ => split
         | |- True => exact I
         | |- is_name _ = true => vm_compute; reflexivity
         | |- tattrs_ok _ = true =>
             unfold tattrs_ok; apply andb_true_iff; split; [vm_compute; reflexivity|pieces_ok]
         | |- forallb pt_ok _ = true => pieces_ok
         | |- frag _ (lit_nodes _) => apply lit_frag; vm_compute; reflexivity
         end.

Ltac toks_apps := repeat lazymatch goal with |- toks (_ ++ _)%list => apply toks_app_i end.

Ltac lit_const t ::=
  lazymatch t with
  | nl => constr:(true)
  | dq => constr:(true)
  | decl => constr:(true)
  | _ => constr:(false)
  end.

(** String equality between a generated text and the text of a template. *)
Ltac str_norm := rewrite ?sapp_assoc, ?sapp_nil_r; cbn [append].

Definition xmlns_rels : list (string * list piece) :=
  [("xmlns", [Lit "http://schemas.openxmlformats.org/package/2006/relationships"])].

Ltac tstr_eq :=
  cbn [tstr tstrs map sconcat fold_right attrs_raw araw raws praw fst snd];
  unfold tstrs, attrs_raw, araw, raws, xmlns_rels;
  cbn [tstr map sconcat fold_right praw fst snd app];
  str_refl.

(** ** Relationship parts *)


Definition relT (id kind target : list piece) : list tpl :=
  [TT [Lit nl]; TS "Relationship" [("Id", id);
      ("Type", Lit "http://schemas.openxmlformats.org/officeDocument/2006/relationships/" :: kind); ("Target", target)]].

Lemma rels_of_tpl body : toks body ->
  rels_of (decl ++ nl ++ tstr (TE "Relationships" xmlns_rels body)) =
  Some (map rel_of (named "Relationship" (tsnodes body))).
Proof.
  intros H. unfold rels_of. rewrite tpl_read; [|reflexivity|reflexivity|].
  - now rewrite named_merge.
  - apply tok_TE; [reflexivity|reflexivity|exact H].
Qed.

Definition pres_body (slides : nat) (notes handout : bool) : list tpl :=
  relT [Lit "rId1"] [Lit "slideMaster"] [Lit "slideMasters/slideMaster1.xml"]
  ++ flat_map (fun i => relT [Lit "rId"; Lit (decn (slide_rel_id i notes handout))] [Lit "slide"]
                             [Lit "slides/slide"; Lit (decn i); Lit ".xml"]) (seq 1 slides)
  ++ (if notes then relT [Lit "rId"; Lit (decn (notes_master_rel_id slides))] [Lit "notesMaster"] [Lit "notesMasters/notesMaster1.xml"] else [])
  ++ (if handout then relT [Lit "rId"; Lit (decn (handout_master_rel_id slides notes))] [Lit "handoutMaster"] [Lit "handoutMasters/handoutMaster1.xml"] else [])
  ++ relT [Lit "rId"; Lit (decn (pres_props_rel_id slides notes handout))] [Lit "presProps"] [Lit "presProps.xml"]
  ++ relT [Lit "rId"; Lit (decn (view_props_rel_id slides notes handout))] [Lit "viewProps"] [Lit "viewProps.xml"]
  ++ relT [Lit "rId"; Lit (decn (theme_rel_id slides notes handout))] [Lit "theme"] [Lit "theme/theme1.xml"]
  ++ relT [Lit "rId"; Lit (decn (table_styles_rel_id slides notes handout))] [Lit "tableStyles"] [Lit "tableStyles.xml"]
  ++ [TT [Lit nl]].

Lemma pres_rels_tpl slides notes handout :
  create_presentation_rels_xml_full slides notes handout =
  decl ++ nl ++ tstr (TE "Relationships" xmlns_rels (pres_body slides notes handout)).
Proof.
  cbn [tstr]. change (sconcat (map tstr (pres_body slides notes handout))) with (tstrs (pres_body slides notes handout)).
  unfold pres_body. rewrite !tstrs_app, tstrs_flat_map.
  unfold create_presentation_rels_xml_full.
  erewrite (sconcat_ext (pres_slide_rel notes handout)).
  2:{ intros i _. instantiate (1 := fun i => tstrs (relT [Lit "rId"; Lit (decn (slide_rel_id i notes handout))] [Lit "slide"]
                             [Lit "slides/slide"; Lit (decn i); Lit ".xml"])). cbv beta. unfold pres_slide_rel, relT. tstr_eq. }
  set (X := sconcat _).
  generalize (decn (notes_master_rel_id slides)) (decn (handout_master_rel_id slides notes))
    (decn (pres_props_rel_id slides notes handout)) (decn (view_props_rel_id slides notes handout))
    (decn (theme_rel_id slides notes handout)) (decn (table_styles_rel_id slides notes handout)).
  intros d1 d2 d3 d4 d5 d6. clearbody X.
  destruct notes, handout; unfold relT; tstr_eq.
Qed.
