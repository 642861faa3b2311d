(** Proofs about slide show and print settings, masters and layouts. *)
From Coq Require Import String Ascii List Bool Arith NArith Lia.
From Verif Require Import Str StrRefl Num EscapeModel EscapeProofs XmlSpec XmlProofs XmlTpl OpcSpec GenModel GenProofs TplRead XmlPath PathRead SlideModel DeckModel SettingsModel SettingsSpec.
Import ListNotations.
Open Scope nat_scope.
Open Scope string_scope.

(** ** Where the parts are *)
Section WHERE.
  Context (r : rest) (title : string) (slides : list slide) (p : presentation_settings).
  Notation deck := (generate r title slides p).
  Ltac into := unfold generate, create_pptx_with_settings, write_package_files; cbv zeta; rewrite !in_app_iff.
  Lemma in_pres_props : In ("ppt/presProps.xml", pres_props_xml (ps_show p)) deck.
  Proof. into. right. left. left. reflexivity. Qed.
  Lemma in_handout q : ps_print p = Some q -> pr_what q = PrintHandouts -> In ("ppt/handoutMasters/handoutMaster1.xml", handout_master_xml q) deck.
  Proof. intros E W. into. do 2 right. left. unfold settings_of. rewrite E. cbn [st_handout]. rewrite W. left. unfold statics_of. rewrite E. reflexivity. Qed.
  Lemma in_theme_block e : In e (write_theme_and_layouts (statics_of p r)) -> In e deck.
  Proof. intros H. into. do 6 right. now left. Qed.
  Lemma in_master : In ("ppt/slideMasters/slideMaster1.xml", written_master (ps_print p)) deck.
  Proof. apply in_theme_block. unfold write_theme_and_layouts. rewrite in_app_iff. right. now left. Qed.
  Lemma in_layout n : 1 <= n <= 7 -> In (layout_path n, slide_layout_xml n) deck.
  Proof.
    intros H. apply in_theme_block. unfold write_theme_and_layouts. rewrite in_app_iff. left. apply in_flat_map. exists n. split; [|now left].
    apply in_seq. change standard_layout_count with 7. lia.
  Qed.
  Lemma in_theme : In ("ppt/theme/theme1.xml", create_theme_xml (ps_theme p)) deck.
  Proof. apply in_theme_block. unfold write_theme_and_layouts. rewrite in_app_iff. right. right. right. now left. Qed.
  Lemma in_signature g : ps_signature p = Some g -> In ("_xmlsignatures/sig1.xml", signature_xml g) deck.
  Proof.
    intros E. into. do 11 right. unfold settings_of. cbn [st_signature]. unfold statics_of. rewrite E. cbn [is_some]. right. now left.
  Qed.
End WHERE.

Lemma decl_split : decl = "<?xml version=""1.0"" encoding=""UTF-8"" standalone=""yes""?>".
Proof. reflexivity. Qed.
Lemma read_node ws n a b : blank ws = true -> sforall not_cr ws = true -> tok (TE n a b) -> xml_read (decl ++ ws ++ tstr (TE n a b)) = Some (tnode (TE n a b)).
Proof. intros A B C. now rewrite tpl_read. Qed.

(** ** Slide show *)
Definition showA (s : slide_show) : list (string * list piece) :=
  ((if ss_loop s then [("loop", [Lit "1"])] else []) ++ (if ss_no_narration s then [("showNarration", [Lit "0"])] else [])
   ++ (if ss_no_animation s then [("showAnimation", [Lit "0"])] else []) ++ (if ss_timings s then [("useTimings", [Lit "1"])] else []))%list.
Lemma showA_raw s : match show_attrs s with [] => "" | _ => " " ++ sjoin " " (show_attrs s) end = attrs_raw (showA s).
Proof. unfold show_attrs, showA. destruct (ss_loop s), (ss_no_narration s), (ss_no_animation s), (ss_timings s); reflexivity. Qed.
Lemma showA_ok s : tattrs_ok (showA s) = true.
Proof. unfold showA. destruct (ss_loop s), (ss_no_narration s), (ss_no_animation s), (ss_timings s); reflexivity. Qed.
Definition kindT (k : show_type) : tpl :=
  match k with
  | Speaker => (TS "p:present" [])
  | Kiosk => (TS "p:kiosk" [("restart", [Lit "300000"])])
  | Browsed => (TS "p:browse" [("showScrollbar", [Lit "1"])])
  end.
Definition sldT (s : N) : tpl := (TS "p:sldId" [("id", [Lit (dec s)])]).
Definition rangeT (r : slide_range) : tpl :=
  match r with
  | RangeAll => (TS "p:sldAll" [])
  | RangeFromTo a b => (TS "p:sldRg" [("st", [Lit (dec a)]); ("end", [Lit (dec b)])])
  | RangeCustom l => TE "p:custShow" [] (map sldT l)
  end.
Definition mediaT (s : slide_show) : list tpl := if ss_media s then ([TE "p:ext" [("uri", [Lit "{2FDB2607-1784-4EEB-B798-7EB5836EED8A}"])] [TS "p14:showMediaCtrls" [("xmlns:p14", [Lit "http://schemas.microsoft.com/office/powerpoint/2010/main"]); ("val", [Lit "1"])]]]) else [].
Definition showT (s : slide_show) : tpl :=
  TE "p:showPr" (showA s) [kindT (ss_type s); rangeT (ss_range s); (TE "p:penClr" [] [TS "a:srgbClr" [("val", [Lit (ss_pen s)])]]);
    (TE "p:extLst" [] ([TE "p:ext" [("uri", [Lit "{EC167BDD-8182-4AB7-AECC-EB403E3ABB37}"])] [TE "p14:laserClr" [("xmlns:p14", [Lit "http://schemas.microsoft.com/office/powerpoint/2010/main"])] [TS "a:srgbClr" [("val", [Lit (ss_pen s)])]]]] ++ (mediaT s))%list)].
Definition presT (o : option slide_show) : tpl :=
  (TE "p:presentationPr" [("xmlns:a", [Lit "http://schemas.openxmlformats.org/drawingml/2006/main"]); ("xmlns:r", [Lit "http://schemas.openxmlformats.org/officeDocument/2006/relationships"]); ("xmlns:p", [Lit "http://schemas.openxmlformats.org/presentationml/2006/main"])] ((match o with Some s => [showT s] | None => [] end) ++ [TE "p:extLst" [] [TE "p:ext" [("uri", [Lit "{E76CE94A-603C-4142-B9EB-6D1370010A27}"])] [TS "p14:discardImageEditData" [("xmlns:p14", [Lit "http://schemas.microsoft.com/office/powerpoint/2010/main"]); ("val", [Lit "0"])]]; TE "p:ext" [("uri", [Lit "{D31A062A-798A-4329-ABDD-BBA856620510}"])] [TS "p14:defaultImageDpi" [("xmlns:p14", [Lit "http://schemas.microsoft.com/office/powerpoint/2010/main"]); ("val", [Lit "0"])]]; TE "p:ext" [("uri", [Lit "{FD5EFAAD-0ECE-453E-9831-46B23BE46B34}"])] [TS "p15:chartTrackingRefBased" [("xmlns:p15", [Lit "http://schemas.microsoft.com/office/powerpoint/2012/main"]); ("val", [Lit "0"])]]]])%list).

Lemma kindT_str k : tstr (kindT k) = show_type_xml k.
Proof. now destruct k. Qed.
Lemma rangeT_str r : tstr (rangeT r) = range_xml r.
Proof.
  destruct r as [|a b|l]; [reflexivity| |].
  - unfold rangeT, range_xml. tstr_eq.
  - unfold rangeT, range_xml. cbn [tstr]. rewrite map_map.
    rewrite (sconcat_ext (fun x => tstr (sldT x)) (fun s => "<p:sldId id=""" ++ dec s ++ """/>")); [reflexivity|]. intros x _. unfold sldT. tstr_eq.
Qed.
Lemma showT_str s : tstr (showT s) = slide_show_xml s.
Proof.
  unfold slide_show_xml. cbv zeta. rewrite showA_raw, <- kindT_str, <- rangeT_str. unfold showT. set (a := showA s). set (k := kindT _). set (g := rangeT _).
  unfold mediaT. clearbody a k g. destruct (ss_media s); cbn [app]; tstr_eq.
Qed.
Lemma presT_str o : decl ++ "" ++ tstr (presT o) = pres_props_xml o.
Proof.
  unfold pres_props_xml, presT. destruct o as [s|].
  - rewrite <- showT_str. set (g := showT s). clearbody g. cbn [app]; tstr_eq.
  - cbn [app]; tstr_eq.
Qed.
Lemma kindT_tok k : tok (kindT k).
Proof. destruct k; unfold kindT; toks_solve. Qed.
Lemma rangeT_tok r : tok (rangeT r).
Proof.
  destruct r as [|a b|l]; unfold rangeT; [toks_solve..|]. apply tok_TE; [reflexivity..|]. apply toks_map. intros x _. unfold sldT. toks_solve.
Qed.
Definition pen_ok (c : string) : bool := sforall plain_val c.
Lemma showT_tok s : pen_ok (ss_pen s) = true -> tok (showT s).
Proof.
  intros H. unfold pen_ok in H. apply tok_TE; [reflexivity|apply showA_ok|]. split; [apply kindT_tok|]. split; [apply rangeT_tok|].
  unfold mediaT. destruct (ss_media s); cbn [app]; toks_solve.
Qed.
Lemma presT_tok o : (forall s, o = Some s -> pen_ok (ss_pen s) = true) -> tok (presT o).
Proof.
  intros H. unfold presT. apply tok_TE; [reflexivity..|]. destruct o as [s|]; cbn [app].
  - split; [apply showT_tok; now apply H|]. toks_solve.
  - toks_solve.
Qed.
Lemma presT_read o : (forall s, o = Some s -> pen_ok (ss_pen s) = true) -> xml_read (pres_props_xml o) = Some (tnode (presT o)).
Proof. intros H. rewrite <- presT_str. apply read_node; [reflexivity..|]. exact (presT_tok o H). Qed.

Definition extent_of (r : slide_range) : extent := match r with RangeAll => Every | RangeFromTo a b => Between (dec a) (dec b) | RangeCustom _ => Other end.

Lemma show_named m s : named m (children (tnode (showT s))) = map tnode (filter (called m) (tbody (showT s))).
Proof. rewrite named_children, named_list; [reflexivity|]. unfold showT. cbn [tbody forallb]. destruct (ss_type s), (ss_range s); reflexivity. Qed.

Lemma show_reads s : let v := tnode (showT s) in
  show_kind v = (match ss_type s with Speaker => true | _ => false end, match ss_type s with Kiosk => true | _ => false end, match ss_type s with Browsed => true | _ => false end)
  /\ show_loops v = ss_loop s /\ show_narrates v = false /\ show_animates v = negb (ss_no_animation s) /\ show_timed v = true
  /\ show_extent v = extent_of (ss_range s) /\ show_pen v = [ss_pen s] /\ show_laser v = [ss_pen s] /\ show_media_controls v = ss_media s.
Proof.
  cbv zeta. split; [|split; [|split; [|split; [|split; [|split; [|split; [|split]]]]]]].
  - unfold show_kind, has. rewrite !show_named. unfold showT. cbn [tbody]. destruct (ss_type s), (ss_range s); reflexivity.
  - unfold show_loops, flag, showT, showA. destruct (ss_loop s), (ss_no_narration s), (ss_no_animation s), (ss_timings s); reflexivity.
  - unfold show_narrates, flag, showT, showA. destruct (ss_loop s), (ss_no_narration s), (ss_no_animation s), (ss_timings s); reflexivity.
  - unfold show_animates, flag, showT, showA. destruct (ss_loop s), (ss_no_narration s), (ss_no_animation s), (ss_timings s); reflexivity.
  - unfold show_timed, flag, showT, showA. destruct (ss_loop s), (ss_no_narration s), (ss_no_animation s), (ss_timings s); reflexivity.
  - unfold show_extent. rewrite !show_named. unfold showT. cbn [tbody]. destruct (ss_range s) as [|a b|l]; destruct (ss_type s); cbn; now rewrite ?sapp_nil_r.
  - unfold show_pen. rewrite path_step, show_named. unfold showT. cbn [tbody]. destruct (ss_range s) as [|a b|l]; destruct (ss_type s); cbn; now rewrite sapp_nil_r.
  - unfold show_laser. rewrite path_step, show_named. unfold showT, mediaT. cbn [tbody]. destruct (ss_range s) as [|a b|l]; destruct (ss_type s); destruct (ss_media s); cbn; now rewrite sapp_nil_r.
  - unfold show_media_controls. rewrite path_step, show_named. unfold showT, mediaT. cbn [tbody]. destruct (ss_range s) as [|a b|l]; destruct (ss_type s); destruct (ss_media s); reflexivity.
Qed.
Lemma pres_show o : at_path ["p:showPr"] (tnode (presT o)) = match o with Some s => [tnode (showT s)] | None => [] end.
Proof. destruct o as [s|]; unfold presT; pread; reflexivity. Qed.

(** A custom list of slides is not written as one: no [id] of a custom show. *)
Lemma custom_show l s : ss_range s = RangeCustom l -> exists c, named "p:custShow" (children (tnode (showT s))) = [c] /\ attr_opt "id" c = None.
Proof. intros E. rewrite show_named. unfold showT. cbn [tbody]. rewrite E. eexists. split; [destruct (ss_type s); cbn; reflexivity|reflexivity]. Qed.

(** ** Colours *)
Lemma upper1_value c : hex_value c <> None -> hex_value (upper1 c) = hex_value c /\ plain_val (upper1 c) = true.
Proof. destruct c as [[] [] [] [] [] [] [] []]; vm_compute; intros H; try (split; reflexivity); now destruct H. Qed.
Lemma upper_value s : forall a n, hex_from a s = Some n -> hex_from a (upper s) = Some n /\ sforall plain_val (upper s) = true.
Proof.
  induction s as [|c s IH]; intros a n H; [now split|]. cbn [hex_from upper sforall] in *. destruct (hex_value c) as [d|] eqn:E; [|discriminate].
  destruct (upper1_value c) as [U P]; [congruence|]. rewrite U, E, P. now apply IH.
Qed.
Lemma value_not_sharp c d : hex_value c = Some d -> is_sharp c = false.
Proof. destruct c as [[] [] [] [] [] [] [] []]; vm_compute; congruence. Qed.
Lemma value_not_ws c d : hex_value c = Some d -> is_ws c = false.
Proof. destruct c as [[] [] [] [] [] [] [] []]; vm_compute; congruence. Qed.
Lemma strip_number c n : hex_number c = Some n -> hex_number (strip_hash_upper c) = Some n /\ sforall plain_val (strip_hash_upper c) = true.
Proof.
  unfold hex_number, strip_hash_upper. destruct c as [|x c]; [discriminate|]. intros H. cbn [trim_start_by].
  assert (E : is_sharp x = false). { cbn [hex_from] in H. destruct (hex_value x) eqn:E; [|discriminate]. now apply value_not_sharp in E. }
  rewrite E. destruct (upper_value _ _ _ H) as [A B]. split; [|exact B]. cbn [upper] in *. exact A.
Qed.
Lemma strip_hash c : strip_hash_upper ("#" ++ c) = strip_hash_upper c.
Proof. reflexivity. Qed.
Lemma strip_color c n : hex_number c = Some n ->
  hex_number (strip_hash_upper c) = Some n /\ hex_number (strip_hash_upper ("#" ++ c)) = Some n /\ sforall plain_val (strip_hash_upper c) = true.
Proof. intros H. destruct (strip_number c n H) as [A B]. rewrite strip_hash. auto. Qed.
