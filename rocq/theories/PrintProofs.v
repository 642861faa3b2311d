(** Proofs about print settings, the handout master, the slide master and the
    layouts. *)
From Coq Require Import String Ascii List Bool Arith NArith Lia.
From Verif Require Import Str StrRefl Num EscapeModel EscapeProofs XmlSpec XmlProofs XmlTpl OpcSpec GenModel GenProofs TplRead XmlPath PathRead SlideModel DeckModel DeckSpec DeckParts DeckWhole SettingsModel SettingsSpec ShowProofs.
Import ListNotations.
Open Scope nat_scope.
Open Scope string_scope.

Definition opt {A B} (o : option A) (f : A -> list B) : list B := match o with Some x => f x | None => [] end.
Definition when {B} (b : bool) (l : list B) : list B := if b then l else [].

(** ** Handout master *)
Definition hdrT (h : string) : list tpl := ([TE "p:sp" [] [TE "p:nvSpPr" [] [TS "p:cNvPr" [("id", [Lit "2"]); ("name", [Lit "Header"])]; TE "p:cNvSpPr" [] [TS "a:spLocks" [("noGrp", [Lit "1"])]]; TE "p:nvPr" [] [TS "p:ph" [("type", [Lit "hdr"])]]]; TS "p:spPr" []; TE "p:txBody" [] [TS "a:bodyPr" []; TS "a:lstStyle" []; TE "a:p" [] [TE "a:r" [] [TE "a:t" [] [TT [Esc h]]]]]]]).
Definition ftrT (f : string) : list tpl := ([TE "p:sp" [] [TE "p:nvSpPr" [] [TS "p:cNvPr" [("id", [Lit "3"]); ("name", [Lit "Footer"])]; TE "p:cNvSpPr" [] [TS "a:spLocks" [("noGrp", [Lit "1"])]]; TE "p:nvPr" [] [TS "p:ph" [("type", [Lit "ftr"])]]]; TS "p:spPr" []; TE "p:txBody" [] [TS "a:bodyPr" []; TS "a:lstStyle" []; TE "a:p" [] [TE "a:r" [] [TE "a:t" [] [TT [Esc f]]]]]]]).
Definition dtT : list tpl := ([TE "p:sp" [] [TE "p:nvSpPr" [] [TS "p:cNvPr" [("id", [Lit "4"]); ("name", [Lit "Date"])]; TE "p:cNvSpPr" [] [TS "a:spLocks" [("noGrp", [Lit "1"])]]; TE "p:nvPr" [] [TS "p:ph" [("type", [Lit "dt"])]]]; TS "p:spPr" []; TE "p:txBody" [] [TS "a:bodyPr" []; TS "a:lstStyle" []; TE "a:p" [] [TE "a:fld" [("id", [Lit "{B6F15528-F159-4107-2D14-000000000000}"]); ("type", [Lit "datetimeFigureOut"])] [TS "a:t" []]; TS "a:endParaRPr" []]]]]).
Definition numT : list tpl := ([TE "p:sp" [] [TE "p:nvSpPr" [] [TS "p:cNvPr" [("id", [Lit "5"]); ("name", [Lit "Slide Number"])]; TE "p:cNvSpPr" [] [TS "a:spLocks" [("noGrp", [Lit "1"])]]; TE "p:nvPr" [] [TS "p:ph" [("type", [Lit "sldNum"])]]]; TS "p:spPr" []; TE "p:txBody" [] [TS "a:bodyPr" []; TS "a:lstStyle" []; TE "a:p" [] [TE "a:fld" [("id", [Lit "{B6F15528-F159-4107-2D14-000000000001}"]); ("type", [Lit "slidenum"])] [TE "a:t" [] [TT [Lit "‹#›"]]]; TS "a:endParaRPr" []]]]]).
Definition handoutF (l : list tpl) : tpl :=
  (TE "p:handoutMaster" [("xmlns:a", [Lit "http://schemas.openxmlformats.org/drawingml/2006/main"]); ("xmlns:r", [Lit "http://schemas.openxmlformats.org/officeDocument/2006/relationships"]); ("xmlns:p", [Lit "http://schemas.openxmlformats.org/presentationml/2006/main"])] [TE "p:cSld" [] [TE "p:bg" [] [TE "p:bgRef" [("idx", [Lit "1001"])] [TS "a:schemeClr" [("val", [Lit "bg1"])]]]; TE "p:spTree" [] ([TE "p:nvGrpSpPr" [] [TS "p:cNvPr" [("id", [Lit "1"]); ("name", [])]; TS "p:cNvGrpSpPr" []; TS "p:nvPr" []]; TE "p:grpSpPr" [] [TE "a:xfrm" [] [TS "a:off" [("x", [Lit "0"]); ("y", [Lit "0"])]; TS "a:ext" [("cx", [Lit "0"]); ("cy", [Lit "0"])]; TS "a:chOff" [("x", [Lit "0"]); ("y", [Lit "0"])]; TS "a:chExt" [("cx", [Lit "0"]); ("cy", [Lit "0"])]]]] ++ (l))%list]; TS "p:clrMap" [("bg1", [Lit "lt1"]); ("tx1", [Lit "dk1"]); ("bg2", [Lit "lt2"]); ("tx2", [Lit "dk2"]); ("accent1", [Lit "accent1"]); ("accent2", [Lit "accent2"]); ("accent3", [Lit "accent3"]); ("accent4", [Lit "accent4"]); ("accent5", [Lit "accent5"]); ("accent6", [Lit "accent6"]); ("hlink", [Lit "hlink"]); ("folHlink", [Lit "folHlink"])]]).
Definition handout_pages (p : print_settings) : list tpl :=
  (opt (pr_header p) hdrT ++ opt (pr_footer p) ftrT ++ when (pr_date p) dtT ++ when (pr_numbers p) numT)%list.
Definition handoutT (p : print_settings) : tpl := handoutF (handout_pages p).
Lemma handout_frame l : decl ++ "" ++ tstr (handoutF l) =
  ("<?xml version=""1.0"" encoding=""UTF-8"" standalone=""yes""?><p:handoutMaster xmlns:a=""http://schemas.openxmlformats.org/drawingml/2006/main"" xmlns:r=""http://schemas.openxmlformats.org/officeDocument/2006/relationships"" xmlns:p=""http://schemas.openxmlformats.org/presentationml/2006/main""><p:cSld><p:bg><p:bgRef idx=""1001""><a:schemeClr val=""bg1""/></p:bgRef></p:bg><p:spTree><p:nvGrpSpPr><p:cNvPr id=""1"" name=""""/><p:cNvGrpSpPr/><p:nvPr/></p:nvGrpSpPr><p:grpSpPr><a:xfrm><a:off x=""0"" y=""0""/><a:ext cx=""0"" cy=""0""/><a:chOff x=""0"" y=""0""/><a:chExt cx=""0"" cy=""0""/></a:xfrm></p:grpSpPr>" ++ tstrs l ++ "</p:spTree></p:cSld><p:clrMap bg1=""lt1"" tx1=""dk1"" bg2=""lt2"" tx2=""dk2"" accent1=""accent1"" accent2=""accent2"" accent3=""accent3"" accent4=""accent4"" accent5=""accent5"" accent6=""accent6"" hlink=""hlink"" folHlink=""folHlink""/></p:handoutMaster>").
Proof. unfold handoutF. cbn [app tstr]. unfold tstrs. tflat. set (x := sconcat (map tstr l)). clearbody x. tstr_eq. Qed.
Lemma hdr_str h : tstrs (hdrT h) = ("<p:sp><p:nvSpPr><p:cNvPr id=""2"" name=""Header""/><p:cNvSpPr><a:spLocks noGrp=""1""/></p:cNvSpPr><p:nvPr><p:ph type=""hdr""/></p:nvPr></p:nvSpPr><p:spPr/><p:txBody><a:bodyPr/><a:lstStyle/><a:p><a:r><a:t>" ++ chained_escape h ++ "</a:t></a:r></a:p></p:txBody></p:sp>").
Proof. unfold hdrT. rewrite chained_escape_eq. tstr_eq. Qed.
Lemma ftr_str f : tstrs (ftrT f) = ("<p:sp><p:nvSpPr><p:cNvPr id=""3"" name=""Footer""/><p:cNvSpPr><a:spLocks noGrp=""1""/></p:cNvSpPr><p:nvPr><p:ph type=""ftr""/></p:nvPr></p:nvSpPr><p:spPr/><p:txBody><a:bodyPr/><a:lstStyle/><a:p><a:r><a:t>" ++ chained_escape f ++ "</a:t></a:r></a:p></p:txBody></p:sp>").
Proof. unfold ftrT. rewrite chained_escape_eq. tstr_eq. Qed.
Lemma dt_str : tstrs dtT = ("<p:sp><p:nvSpPr><p:cNvPr id=""4"" name=""Date""/><p:cNvSpPr><a:spLocks noGrp=""1""/></p:cNvSpPr><p:nvPr><p:ph type=""dt""/></p:nvPr></p:nvSpPr><p:spPr/><p:txBody><a:bodyPr/><a:lstStyle/><a:p><a:fld id=""{B6F15528-F159-4107-2D14-000000000000}"" type=""datetimeFigureOut""><a:t/></a:fld><a:endParaRPr/></a:p></p:txBody></p:sp>").
Proof. unfold dtT. tstr_eq. Qed.
Lemma num_str : tstrs numT = ("<p:sp><p:nvSpPr><p:cNvPr id=""5"" name=""Slide Number""/><p:cNvSpPr><a:spLocks noGrp=""1""/></p:cNvSpPr><p:nvPr><p:ph type=""sldNum""/></p:nvPr></p:nvSpPr><p:spPr/><p:txBody><a:bodyPr/><a:lstStyle/><a:p><a:fld id=""{B6F15528-F159-4107-2D14-000000000001}"" type=""slidenum""><a:t>‹#›</a:t></a:fld><a:endParaRPr/></a:p></p:txBody></p:sp>").
Proof. unfold numT. tstr_eq. Qed.
Lemma handoutT_str p : decl ++ "" ++ tstr (handoutT p) = handout_master_xml p.
Proof.
  unfold handoutT. rewrite handout_frame. unfold handout_pages, handout_master_xml. rewrite !tstrs_app.
  assert (O : forall (o : option string) f g, (forall x, tstrs (f x) = g x) -> tstrs (opt o f) = match o with Some x => g x | None => "" end) by (intros [x|] f g H; [apply H|reflexivity]).
  assert (W : forall b l g, tstrs l = g -> tstrs (when b l) = if b then g else "") by (intros [] l g H; [apply H|reflexivity]).
  rewrite (O _ _ _ hdr_str), (O _ _ _ ftr_str), (W _ _ _ dt_str), (W _ _ _ num_str).
  repeat match goal with |- context [match ?o with Some x => _ | None => "" end] => let m := fresh "m" in set (m := match o with Some x => _ | None => "" end); clearbody m
    | |- context [if ?b then _ else ""] => let m := fresh "m" in set (m := if b then _ else ""); clearbody m end.
  str_refl.
Qed.
Definition texts_ok (p : print_settings) : bool :=
  match pr_header p with Some h => text_ok h | None => true end && match pr_footer p with Some f => text_ok f | None => true end.
Lemma handoutF_tok l : toks l -> tok (handoutF l).
Proof. intros H. unfold handoutF. cbn [app]. toks_solve. exact H. Qed.
Lemma opt_toks {A} (o : option A) (ok : A -> bool) (f : A -> list tpl) : (forall x, ok x = true -> toks (f x)) ->
  match o with Some x => ok x | None => true end = true -> toks (opt o f).
Proof. intros H. destruct o as [x|]; [apply H|exact (fun _ => I)]. Qed.
Lemma when_toks b l : toks l -> toks (when b l).
Proof. intros H. destruct b; [exact H|exact I]. Qed.
Lemma handoutT_tok p : texts_ok p = true -> tok (handoutT p).
Proof.
  intros H. unfold texts_ok in H. apply andb_true_iff in H. destruct H as [H1 H2]. apply handoutF_tok. unfold handout_pages.
  repeat apply toks_app_i.
  - apply (opt_toks _ text_ok); [|exact H1]. intros h Hh. unfold hdrT. toks_solve.
  - apply (opt_toks _ text_ok); [|exact H2]. intros h Hh. unfold ftrT. toks_solve.
  - apply when_toks. unfold dtT. toks_solve.
  - apply when_toks. unfold numT. toks_solve.
Qed.
Lemma handout_read p : texts_ok p = true -> xml_read (handout_master_xml p) = Some (tnode (handoutT p)).
Proof. intros H. rewrite <- handoutT_str. apply read_node; [reflexivity..|]. now apply handoutT_tok. Qed.

(** A page whose tree holds these shapes, each a placeholder of a given type,
    number, text runs and fields. *)
Definition facts := (string * string * list string * list string)%type.
Definition meets (s : node) (f : facts) : Prop :=
  let '(t, n, runs, fields) := f in placeholder_type s = [t] /\ shape_number s = [n] /\ shape_runs s = runs /\ shape_fields s = fields.
Definition f_type (f : facts) := fst (fst (fst f)).
Definition f_number (f : facts) := snd (fst (fst f)).
Definition f_runs (f : facts) := snd (fst f).
Definition f_fields (f : facts) := snd f.
Lemma meets_select ss fs t : Forall2 meets ss fs ->
  Forall2 meets (filter (fun s => existsb (String.eqb t) (placeholder_type s)) ss) (filter (fun f => String.eqb t (f_type f)) fs).
Proof.
  induction 1 as [|s [[[t' n] r] f] ss fs M _ IH]; [constructor|]. cbn [filter f_type fst]. destruct M as (M1 & M2). rewrite M1. cbn [existsb].
  rewrite orb_false_r. unfold f_type. cbn [fst]. destruct (String.eqb t t'); [constructor; [now split|exact IH]|exact IH].
Qed.
Lemma meets_runs ss fs : Forall2 meets ss fs -> map shape_runs ss = map f_runs fs.
Proof. induction 1 as [|s [[[t' n] r] f] ss fs M _ IH]; [reflexivity|]. destruct M as (_ & _ & M & _). cbn [map]. now rewrite M, IH. Qed.
Lemma meets_fields ss fs : Forall2 meets ss fs -> map shape_fields ss = map f_fields fs.
Proof. induction 1 as [|s [[[t' n] r] f] ss fs M _ IH]; [reflexivity|]. destruct M as (_ & _ & _ & M). cbn [map]. now rewrite M, IH. Qed.
Lemma meets_numbers ss fs : Forall2 meets ss fs -> flat_map shape_number ss = map f_number fs.
Proof. induction 1 as [|s [[[t' n] r] f] ss fs M _ IH]; [reflexivity|]. destruct M as (_ & M & _). cbn [map flat_map app]. rewrite M, IH. reflexivity. Qed.
Lemma meets_length ss fs : Forall2 meets ss fs -> length ss = length fs.
Proof. induction 1; cbn; congruence. Qed.
Definition page_facts (p : print_settings) (header : option (list string)) (a b c d : string) : list facts :=
  (opt header (fun l => [("hdr", a, l, [])]) ++ opt (pr_footer p) (fun f => [("ftr", b, [f], [])])
   ++ when (pr_date p) [("dt", c, [], ["datetimeFigureOut"])] ++ when (pr_numbers p) [("sldNum", d, [], ["slidenum"])])%list.
Lemma page_says_facts p header x a b c d :
  map (attr "id") (at_path ["p:cSld"; "p:spTree"; "p:nvGrpSpPr"; "p:cNvPr"] x) = ["1"] ->
  Forall2 meets (shapes_of x) (page_facts p header a b c d) ->
  NoDup ("1" :: map f_number (page_facts p header a b c d)) -> page_says header (pr_footer p) (pr_date p) (pr_numbers p) x.
Proof.
  intros G M N. unfold page_says, drawing_numbers. rewrite G, (meets_numbers _ _ M). unfold placeholders.
  rewrite (meets_runs _ _ (meets_select _ _ "hdr" M)), (meets_runs _ _ (meets_select _ _ "ftr" M)),
    (meets_fields _ _ (meets_select _ _ "dt" M)), (meets_fields _ _ (meets_select _ _ "sldNum" M)).
  rewrite !(meets_length _ _ (meets_select _ _ _ M)), (meets_length _ _ M).
  assert (E : forall P Q R S T U : Prop, (P /\ Q /\ R /\ S /\ T) -> U -> (P /\ Q /\ R /\ S /\ T /\ U)) by tauto.
  apply E; [|exact N]. clear. unfold page_facts. destruct header, (pr_footer p), (pr_date p), (pr_numbers p); cbn; auto 10.
Qed.
Lemma handout_shapes l : forallb elemT l = true -> shapes_of (tnode (handoutF l)) = map tnode (filter (called "p:sp") l).
Proof.
  intros H. unfold shapes_of, handoutF. do 2 pstep. cbn [app]. rewrite path_list by (cbn; exact H). cbn [tbody filter called tname String.eqb Ascii.eqb Bool.eqb].
  exact (flat_map_self _).
Qed.
Lemma opt_elem {A} (o : option A) (f : A -> list tpl) : (forall x, forallb elemT (f x) = true) -> forallb elemT (opt o f) = true.
Proof. intros H. destruct o; [apply H|reflexivity]. Qed.
Lemma when_elem b l : forallb elemT l = true -> forallb elemT (when b l) = true.
Proof. intros H. destruct b; [apply H|reflexivity]. Qed.
Lemma handout_elems p : forallb elemT (handout_pages p) = true.
Proof. unfold handout_pages. rewrite !forallb_app, !opt_elem, !when_elem by reflexivity. reflexivity. Qed.
Lemma meets_opt {A} (o : option A) (f : A -> list tpl) (g : A -> list facts) :
  (forall x, Forall2 meets (map tnode (filter (called "p:sp") (f x))) (g x)) -> Forall2 meets (map tnode (filter (called "p:sp") (opt o f))) (opt o g).
Proof. intros H. destruct o; [apply H|constructor]. Qed.
Lemma meets_when b l k : Forall2 meets (map tnode (filter (called "p:sp") l)) k -> Forall2 meets (map tnode (filter (called "p:sp") (when b l))) (when b k).
Proof. intros H. destruct b; [apply H|constructor]. Qed.
Ltac meet := cbn [filter called tname String.eqb Ascii.eqb Bool.eqb map]; constructor; [|constructor]; unfold meets, placeholder_type, shape_number, shape_runs, shape_fields;
  repeat split; pread; cbn [map]; rewrite ?text_leaf; cbn; rewrite ?sapp_nil_r; reflexivity.
Lemma handout_says p : page_says (option_map (fun h => [h]) (pr_header p)) (pr_footer p) (pr_date p) (pr_numbers p) (tnode (handoutT p)).
Proof.
  apply (page_says_facts p _ _ "2" "3" "4" "5").
  - unfold handoutT, handoutF. do 2 pstep. cbn [app]. rewrite path_list by (cbn; apply handout_elems).
    cbn [tbody filter called tname String.eqb Ascii.eqb Bool.eqb map flat_map]. 
    replace (filter (called "p:nvGrpSpPr") (handout_pages p)) with (@nil tpl).
    + reflexivity.
    + unfold handout_pages. destruct (pr_header p), (pr_footer p), (pr_date p), (pr_numbers p); reflexivity.
  - unfold handoutT. rewrite handout_shapes by apply handout_elems. unfold handout_pages, page_facts. rewrite !filter_app, !map_app.
    repeat apply Forall2_app.
    + destruct (pr_header p) as [h|]; cbn [opt option_map]; [unfold hdrT; meet|constructor].
    + apply meets_opt. intros f. unfold ftrT. meet.
    + apply meets_when. unfold dtT. meet.
    + apply meets_when. unfold numT. meet.
  - unfold page_facts. destruct (pr_header p), (pr_footer p), (pr_date p), (pr_numbers p); cbn; apply nodupb_NoDup; reflexivity.
Qed.
