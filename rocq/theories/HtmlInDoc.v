(** The slides of an HTML document. *)
From Coq Require Import String Ascii List Bool Arith NArith ZArith Lia.
From Verif Require Import Str Num ColorModel TableModel ConnectorModel ShapeModel SlideModel MdParseModel MdParseProofs HtmlInModel HtmlInSpec HtmlInProofs.
Import ListNotations.
Open Scope nat_scope.
Open Scope string_scope.

Section D.
Context (trim lower upper : string -> string) (font_size : string -> option N) (load_image : string -> option image) (options : html_in).
Notation tag_step := (tag_step trim lower upper font_size load_image options).
Notation tag_steps := (tag_steps trim lower upper font_size load_image options).
Notation parse_events := (parse_events trim lower upper font_size load_image options).
Notation open_tag := (open_tag trim lower upper font_size load_image options).
Notation close_tag := (close_tag trim lower upper options).
Notation content := (content trim load_image options).
Notation hreads := (hreads trim).
Notation limited := (limited options).
Hypothesis trim_empty : trim "" = "".

Definition calm (t : list string) : Prop := existsb (among SKIP_TAGS) t = false.
Definition unmarked (y : list style) : Prop := Forall (eq style0) y.
Notation idle sl cur t y rws cd qt pt := (HState sl cur "" t y false false false [] rws [] "" cd qt pt).
Lemma calm_pop t : calm t -> calm (match t with _ :: l => l | [] => [] end).
Proof. destruct t as [|x t]; [easy|]. unfold calm. cbn. intros H. now apply orb_false_elim in H as [_ H]. Qed.
Lemma calm_push n t : among SKIP_TAGS n = false -> calm t -> calm (n :: t).
Proof. unfold calm. cbn [existsb]. now intros -> ->. Qed.
Lemma unmarked_pop y : unmarked y -> unmarked (match y with _ :: l => l | [] => [] end).
Proof. intros H. destruct H; [constructor|assumption]. Qed.
Lemma parent0 y : unmarked y -> match match y with s :: _ => Some s | [] => None end with Some y => y | None => style0 end = style0.
Proof. intros H. destruct H; [reflexivity|auto]. Qed.
Lemma format0 s : unmarked (styles s) -> active_format trim lower upper s = None.
Proof. intros H. unfold active_format, active. destruct H as [|x l <- _]; reflexivity. Qed.
Lemma no_style_assoc attrs : no_style attrs -> assoc "style" attrs = None.
Proof.
  intros H. unfold assoc. destruct (find _ attrs) as [[k v]|] eqn:E; [|reflexivity]. apply find_some in E as [I E]. apply String.eqb_eq in E. subst k. exfalso. exact (H v I).
Qed.
Lemma push_plain n attrs s : among VOID_TAGS n = false -> no_style attrs -> unmarked (styles s) -> push_style trim lower upper font_size n attrs s = Ret (with_styles (style0 :: styles s) s).
Proof. intros V NS U. unfold push_style, active. rewrite V, no_style_assoc, parent0 by assumption. reflexivity. Qed.

(** ** Tags without a meaning *)
Lemma neutral_eqb n k : neutral n -> In k SPECIAL -> String.eqb n k = false.
Proof. intros N I. apply String.eqb_neq. intros ->. exact (N I). Qed.
Lemma among_false l n : (forall k, In k l -> String.eqb n k = false) -> among l n = false.
Proof. unfold among. induction l as [|x l IH]; intros H; [reflexivity|]. cbn [existsb]. rewrite (H x) by now left. apply IH. intros k I. apply H. now right. Qed.
Lemma special_among l n : neutral n -> incl l SPECIAL -> among l n = false.
Proof. intros N I. apply among_false. intros k K. apply neutral_eqb; [exact N|now apply I]. Qed.
Ltac special := let k := fresh in let K := fresh in intros k K; repeat destruct K as [<-|K]; try destruct K; vm_compute; tauto.
Lemma open_neutral n attrs sl cur b t y tb co q its rws rw cl cd qt pt : neutral n -> no_style attrs -> calm t -> unmarked y ->
  tag_step (HState sl cur b t y tb co q its rws rw cl cd qt pt) (Open n attrs) = Ret (HState sl cur b (n :: t) (style0 :: y) tb co q its rws rw cl cd qt pt) /\ calm (n :: t).
Proof.
  intros N NS C U. assert (S : among SKIP_TAGS n = false) by (apply special_among; [exact N|special]). split; [|now apply calm_push].
  cbn [HtmlInModel.tag_step]. unfold HtmlInModel.open_tag. unfold skipping. cbn [tags with_tags existsb]. rewrite S. unfold calm in C. rewrite C. cbn [orb]. cbv iota.
  rewrite push_plain by (assumption || (apply special_among; [exact N|special])). cbn [bind].
  assert (K : forall k, In k SPECIAL -> String.eqb n k = false) by (intros; now apply neutral_eqb).
  rewrite (K "h1"), (K "pre"), (K "table"), (K "blockquote"), (K "img"), (K "br"), (K "hr") by (vm_compute; tauto).
  rewrite !special_among by (exact N || special). reflexivity.
Qed.
Lemma close_neutral n sl cur b t y tb co q its rws rw cl cd qt pt : neutral n -> (~ In n BLOCKS \/ b = "") -> calm t -> unmarked y ->
  tag_step (HState sl cur b t y tb co q its rws rw cl cd qt pt) (Close n)
  = Ret (HState sl cur b (match t with _ :: l => l | [] => [] end) (match y with _ :: l => l | [] => [] end) tb co q its rws rw cl cd qt pt).
Proof.
  intros N NB C U. cbn [HtmlInModel.tag_step]. unfold HtmlInModel.close_tag. unfold skipping. cbn [tags]. unfold calm in C. rewrite C. cbv iota.
  assert (K : forall k, In k SPECIAL -> String.eqb n k = false) by (intros; now apply neutral_eqb).
  rewrite (K "h1"), (K "li"), (K "pre"), (K "table"), (K "blockquote"), (K "tr") by (vm_compute; tauto).
  change ["p"; "div"; "article"; "section"; "main"] with BLOCKS.
  rewrite (special_among HEADINGS), (special_among ["ul"; "ol"]), (special_among ["th"; "td"]), (special_among ["strong"; "b"]), (special_among ["em"; "i"]) by (exact N || special).
  cbn [buf]. destruct (among BLOCKS n) eqn:B.
  - destruct NB as [NB| ->]; [exfalso; apply NB; unfold among in B; apply existsb_exists in B as (x & I & E); apply String.eqb_eq in E; now subst x|].
    rewrite trim_empty. cbn [String.eqb bind]. unfold pop_style. rewrite special_among by (exact N || special). reflexivity.
  - cbn [bind]. unfold pop_style. rewrite special_among by (exact N || special). reflexivity.
Qed.

(** ** Inline text *)
Lemma inline_run x : inline_ok x -> forall sl cur b t y its rws rw cl cd qt pt, calm t -> unmarked y ->
  exists t' y', calm t' /\ unmarked y' /\
  tag_steps (HState sl cur b t y false false false its rws rw cl cd qt pt) (hinline_events x) = Ret (HState sl cur (b ++ hsays x) t' y' false false false its rws rw cl cd qt pt).
Proof.
  induction x as [|x IHx z IHz|s| |short x IH|short x IH|n attrs x IH]; intros OK sl cur b t y its rws rw cl cd qt pt C U; cbn [hinline_events hsays].
  - exists t, y. rewrite sapp_nil_r. auto.
  - destruct OK as [O1 O2]. destruct (IHx O1 sl cur b t y its rws rw cl cd qt pt C U) as (t1 & y1 & C1 & U1 & E1). destruct (IHz O2 sl cur (b ++ hsays x) t1 y1 its rws rw cl cd qt pt C1 U1) as (t2 & y2 & C2 & U2 & E2).
    exists t2, y2. split; [exact C2|]. split; [exact U2|]. rewrite steps_app, E1. cbn [bind]. rewrite E2, sapp_assoc. reflexivity.
  - exists t, y. split; [exact C|]. split; [exact U|]. cbn [HtmlInModel.tag_steps HtmlInModel.tag_step]. unfold chars_in, skipping. cbn [tags]. unfold calm in C. rewrite C. reflexivity.
  - exists ("br" :: t), y. split; [now apply calm_push|]. split; [exact U|]. cbn [HtmlInModel.tag_steps HtmlInModel.tag_step]. unfold HtmlInModel.open_tag, skipping. cbn [tags with_tags existsb]. unfold calm in C. rewrite C. reflexivity.
  - set (n := if short then "b" else "strong"). unfold html_element. cbn [HtmlInModel.tag_steps].
    assert (E0 : tag_step (HState sl cur b t y false false false its rws rw cl cd qt pt) (Open n []) = Ret (HState sl cur (b ++ "**") (n :: t) (style0 :: y) false false false its rws rw cl cd qt pt)).
    { cbn [HtmlInModel.tag_step]. unfold HtmlInModel.open_tag, skipping. cbn [tags with_tags existsb]. unfold calm in C. rewrite C. rewrite push_plain; [|now destruct short|intros v []|exact U]. now destruct short. }
    rewrite E0. cbn [bind]. rewrite steps_app. destruct (IH OK sl cur (b ++ "**") (n :: t) (style0 :: y) its rws rw cl cd qt pt) as (t1 & y1 & C1 & U1 & E1); [apply calm_push; [now destruct short|exact C]|now constructor|]. rewrite E1. cbn [bind].
    exists (match t1 with _ :: l => l | [] => [] end), (match y1 with _ :: l => l | [] => [] end). split; [now apply calm_pop|]. split; [now apply unmarked_pop|].
    cbn [HtmlInModel.tag_steps HtmlInModel.tag_step]. unfold HtmlInModel.close_tag, skipping. cbn [tags]. unfold calm in C1. rewrite C1. replace (b ++ "**" ++ hsays x ++ "**") with (((b ++ "**") ++ hsays x) ++ "**") by now rewrite !sapp_assoc. now destruct short.
  - set (n := if short then "i" else "em"). unfold html_element. cbn [HtmlInModel.tag_steps].
    assert (E0 : tag_step (HState sl cur b t y false false false its rws rw cl cd qt pt) (Open n []) = Ret (HState sl cur (b ++ "*") (n :: t) (style0 :: y) false false false its rws rw cl cd qt pt)).
    { cbn [HtmlInModel.tag_step]. unfold HtmlInModel.open_tag, skipping. cbn [tags with_tags existsb]. unfold calm in C. rewrite C. rewrite push_plain; [|now destruct short|intros v []|exact U]. now destruct short. }
    rewrite E0. cbn [bind]. rewrite steps_app. destruct (IH OK sl cur (b ++ "*") (n :: t) (style0 :: y) its rws rw cl cd qt pt) as (t1 & y1 & C1 & U1 & E1); [apply calm_push; [now destruct short|exact C]|now constructor|]. rewrite E1. cbn [bind].
    exists (match t1 with _ :: l => l | [] => [] end), (match y1 with _ :: l => l | [] => [] end). split; [now apply calm_pop|]. split; [now apply unmarked_pop|].
    cbn [HtmlInModel.tag_steps HtmlInModel.tag_step]. unfold HtmlInModel.close_tag, skipping. cbn [tags]. unfold calm in C1. rewrite C1. replace (b ++ "*" ++ hsays x ++ "*") with (((b ++ "*") ++ hsays x) ++ "*") by now rewrite !sapp_assoc. now destruct short.
  - destruct OK as (N & NB & NS & OK). unfold html_element. cbn [HtmlInModel.tag_steps]. destruct (open_neutral n attrs sl cur b t y false false false its rws rw cl cd qt pt N NS C U) as [-> C0]. cbn [bind]. rewrite steps_app.
    destruct (IH OK sl cur b (n :: t) (style0 :: y) its rws rw cl cd qt pt C0) as (t1 & y1 & C1 & U1 & ->); [now constructor|]. cbn [bind HtmlInModel.tag_steps]. rewrite close_neutral by auto. cbn [bind].
    exists (match t1 with _ :: l => l | [] => [] end), (match y1 with _ :: l => l | [] => [] end). split; [now apply calm_pop|]. split; [now apply unmarked_pop|]. reflexivity.
Qed.

Lemma bare_run x : bare x -> forall sl cur t y tb co q its rws rw cl cd qt pt, calm t -> unmarked y -> co || tb || q = true ->
  exists t' y', calm t' /\ unmarked y' /\
  tag_steps (HState sl cur "" t y tb co q its rws rw cl cd qt pt) (hinline_events x)
  = Ret (HState sl cur "" t' y' tb co q its rws rw (if negb co && tb then cl ++ hsays x else cl) (if co then cd ++ hsays x else cd) (if co || tb then qt else qt ++ hsays x) pt).
Proof.
  induction x as [|x IHx z IHz|s| |short x IH|short x IH|n attrs x IH]; intros OK sl cur t y tb co q its rws rw cl cd qt pt C U M; cbn [hinline_events hsays].
  - exists t, y. rewrite !sapp_nil_r. split; [exact C|]. split; [exact U|]. destruct co, tb; reflexivity.
  - destruct OK as [O1 O2]. destruct (IHx O1 sl cur t y tb co q its rws rw cl cd qt pt C U M) as (t1 & y1 & C1 & U1 & E1).
    destruct (IHz O2 sl cur t1 y1 tb co q its rws rw (if negb co && tb then cl ++ hsays x else cl) (if co then cd ++ hsays x else cd) (if co || tb then qt else qt ++ hsays x) pt C1 U1 M) as (t2 & y2 & C2 & U2 & E2).
    exists t2, y2. split; [exact C2|]. split; [exact U2|]. rewrite steps_app, E1. cbn [bind]. rewrite E2. destruct co, tb; cbn [negb andb orb]; now rewrite sapp_assoc.
  - exists t, y. split; [exact C|]. split; [exact U|]. cbn [HtmlInModel.tag_steps HtmlInModel.tag_step]. unfold chars_in, skipping. cbn [tags]. unfold calm in C. rewrite C. cbn [coding tabling quoting bind]. destruct co; [reflexivity|]. destruct tb; [reflexivity|]. cbn [orb] in M. rewrite M. reflexivity.
  - destruct OK.
  - destruct OK.
  - destruct OK.
  - destruct OK as (N & NS & OK). unfold html_element. cbn [HtmlInModel.tag_steps]. destruct (open_neutral n attrs sl cur "" t y tb co q its rws rw cl cd qt pt N NS C U) as [-> C0]. cbn [bind]. rewrite steps_app.
    destruct (IH OK sl cur (n :: t) (style0 :: y) tb co q its rws rw cl cd qt pt C0) as (t1 & y1 & C1 & U1 & ->); [now constructor|exact M|]. cbn [bind HtmlInModel.tag_steps]. rewrite close_neutral by auto. cbn [bind].
    exists (match t1 with _ :: l => l | [] => [] end), (match y1 with _ :: l => l | [] => [] end). split; [now apply calm_pop|]. split; [now apply unmarked_pop|]. reflexivity.
Qed.

(** ** What each item does *)
Definition opt (c : option slide) : list slide := match c with Some s => [s] | None => [] end.
Definition or_slide (c : option slide) (t : string) : slide := match c with Some s => s | None => slide_new t end.
Definition fit_line (s : slide) (t : string) : slide := if limited s then add_line t None s else s.
Definition put (x : list slide * option slide * option string) (e : item) : list slide * option slide * option string :=
  let '(sl, cur, pt) := x in
  match e with
  | Title t => ((sl ++ opt cur)%list, Some (slide_new (if filled t then t else "Slide")), match pt with Some _ => pt | None => if filled t then Some t else None end)
  | Cut => ((sl ++ opt cur)%list, None, pt)
  | Para t => (sl, Some (match cur with Some c => fit_line c t | None => add_line t None (slide_new (or_else pt "Overview")) end), pt)
  | Items ts => (sl, Some (fold_left fit_line ts (or_slide cur (or_else pt "Key Points"))), pt)
  | Sub t => (sl, Some (add_line ("**" ++ t ++ "**") None (or_slide cur "Slide")), pt)
  | Cells rs => match table_from_string_rows rs true with Ret t => (sl, Some (with_table t (or_slide cur "Data Table")), pt) | Panic => (sl, cur, pt) end
  | Listing c => (sl, Some (with_code (Code c "text" 500000 1800000 8000000 4000000) (or_slide cur "Code")), pt)
  | Pict i => (sl, Some (with_image i (or_slide cur "Image")), pt)
  | Note t => (sl, option_map (with_notes t) cur, pt)
  end.
Definition puts (l : list item) (x : list slide * option slide * option string) := fold_left put l x.
Notation state x t y rws cd qt := (let '(sl, cur, pt) := x in idle sl cur t y rws cd qt pt).
Definition does (evs : list tag_event) (l : list item) : Prop := forall sl cur pt t y rws cd qt, calm t -> unmarked y ->
  exists t' y' rws' cd' qt', calm t' /\ unmarked y' /\ tag_steps (idle sl cur t y rws cd qt pt) evs = Ret (state (puts l (sl, cur, pt)) t' y' rws' cd' qt').
Lemma does_app a b l m : does a l -> does b m -> does (a ++ b) (l ++ m).
Proof.
  intros A B sl cur pt t y rws cd qt C U. destruct (A sl cur pt t y rws cd qt C U) as (t1 & y1 & r1 & c1 & q1 & C1 & U1 & E1). unfold puts in *. rewrite fold_left_app. destruct (fold_left put l (sl, cur, pt)) as [[sl1 cur1] pt1].
  destruct (B sl1 cur1 pt1 t1 y1 r1 c1 q1 C1 U1) as (t2 & y2 & r2 & c2 & q2 & C2 & U2 & E2). exists t2, y2, r2, c2, q2. split; [exact C2|]. split; [exact U2|]. rewrite steps_app, E1. cbn [bind]. exact E2.
Qed.
Lemma done {A} (x y : A) : x = y -> @Ret A x = Ret y. Proof. now intros ->. Qed.
Ltac opened C U := cbn [HtmlInModel.tag_steps HtmlInModel.tag_step]; unfold HtmlInModel.open_tag at 1, skipping at 1; cbn [tags with_tags existsb]; unfold calm in C; rewrite C.

Lemma heading_does n attrs x : 1 <= n <= 6 -> no_style attrs -> inline_ok x -> does (html_element (heading_tag n) attrs (hinline_events x)) (content (DHeading n attrs x)).
Proof.
  intros L NS OK sl cur pt t y rws cd qt C U. unfold html_element. cbn [HtmlInModel.tag_steps].
  assert (E0 : tag_step (idle sl cur t y rws cd qt pt) (Open (heading_tag n) attrs) =
    Ret (if Nat.eqb n 1 then idle (sl ++ opt cur)%list None (heading_tag n :: t) (style0 :: y) rws cd qt pt else idle sl cur (heading_tag n :: t) (style0 :: y) rws cd qt pt) /\ among SKIP_TAGS (heading_tag n) = false).
  { cbn [HtmlInModel.tag_step]. unfold HtmlInModel.open_tag, skipping. cbn [tags with_tags existsb]. unfold calm in C. rewrite C.
    destruct n as [|[|[|[|[|[|[|n]]]]]]]; try lia; (split; [|reflexivity]); cbn [Nat.eqb];
    (rewrite push_plain; [|reflexivity|exact NS|exact U]); apply done.
    - change (String.eqb (heading_tag 1) "h1") with true. cbv iota. unfold flush_buf, h_finalize, flush_buf. cbn [buf with_buf with_styles styles with_tags tags]. rewrite !trim_empty. cbn. rewrite !trim_empty. cbn. destruct cur; cbn; [reflexivity|now rewrite app_nil_r].
    - unfold flush_buf. cbn [buf with_buf with_styles styles with_tags tags]. rewrite !trim_empty. reflexivity.
    - unfold flush_buf. cbn [buf with_buf with_styles styles with_tags tags]. rewrite !trim_empty. reflexivity.
    - unfold flush_buf. cbn [buf with_buf with_styles styles with_tags tags]. rewrite !trim_empty. reflexivity.
    - unfold flush_buf. cbn [buf with_buf with_styles styles with_tags tags]. rewrite !trim_empty. reflexivity.
    - unfold flush_buf. cbn [buf with_buf with_styles styles with_tags tags]. rewrite !trim_empty. reflexivity. }
  destruct E0 as [-> SK]. cbn [bind]. rewrite steps_app.
  assert (M : exists sl0 cur0, (if Nat.eqb n 1 then idle (sl ++ opt cur)%list None (heading_tag n :: t) (style0 :: y) rws cd qt pt else idle sl cur (heading_tag n :: t) (style0 :: y) rws cd qt pt) = idle sl0 cur0 (heading_tag n :: t) (style0 :: y) rws cd qt pt /\ (sl0, cur0) = (if Nat.eqb n 1 then ((sl ++ opt cur)%list, None) else (sl, cur))) by (destruct (Nat.eqb n 1); eauto).
  destruct M as (sl0 & cur0 & -> & M).
  destruct (inline_run x OK sl0 cur0 "" (heading_tag n :: t) (style0 :: y) [] rws [] "" cd qt pt) as (t1 & y1 & C1 & U1 & ->); [now apply calm_push|now constructor|]. cbn [bind].
  exists (match t1 with _ :: l => l | [] => [] end), (match y1 with _ :: l => l | [] => [] end), rws, cd, qt. split; [now apply calm_pop|]. split; [now apply unmarked_pop|].
  cbn [HtmlInModel.tag_steps HtmlInModel.tag_step]. unfold HtmlInModel.close_tag, skipping. cbn [tags]. unfold calm in C1. rewrite C1. cbv iota. cbn [buf]. change ("" ++ hsays x) with (hsays x).
  destruct n as [|[|n]]; [lia| |].
  - cbn [Nat.eqb] in M. injection M as -> ->. change (String.eqb (heading_tag 1) "h1") with true. cbv iota. cbn [bind]. apply done. unfold puts. cbn [HtmlInSpec.content fold_left put]. unfold HtmlInSpec.hreads, filled. destruct (String.eqb (trim (hsays x)) ""); cbn [negb]; destruct pt; destruct U1 as [|? ? <- U1]; reflexivity.
  - cbn [Nat.eqb] in M. injection M as -> ->. assert (E : content (DHeading (S (S n)) attrs x) = if filled (hreads x) then [Sub (hreads x)] else []) by reflexivity. rewrite E. unfold HtmlInSpec.hreads, filled.
    assert (F : String.eqb (heading_tag (S (S n))) "h1" = false /\ among HEADINGS (heading_tag (S (S n))) = true /\ among VOID_TAGS (heading_tag (S (S n))) = false) by (destruct n as [|[|[|[|[|n]]]]]; try lia; repeat split). destruct F as (-> & -> & F). cbn [bind]. unfold pop_style. rewrite F.
    destruct (String.eqb (trim (hsays x)) ""); cbn [negb]; [reflexivity|]. apply done. unfold add_formatted_text. rewrite format0 by exact U1. reflexivity.
Qed.
Lemma para_does n attrs x : In n BLOCKS -> no_style attrs -> inline_ok x -> does (html_element n attrs (hinline_events x)) (content (DPara n attrs x)).
Proof.
  intros I NS OK sl cur pt t y rws cd qt C U. unfold html_element. cbn [HtmlInModel.tag_steps].
  assert (NN : neutral n) by (intros S; repeat destruct I as [<-|I]; try destruct I; vm_compute in S; repeat destruct S as [S|S]; congruence).
  destruct (open_neutral n attrs sl cur "" t y false false false [] rws [] "" cd qt pt NN NS C U) as [-> C0]. cbn [bind]. rewrite steps_app.
  destruct (inline_run x OK sl cur "" (n :: t) (style0 :: y) [] rws [] "" cd qt pt) as (t1 & y1 & C1 & U1 & ->); [exact C0|now constructor|]. cbn [bind].
  exists (match t1 with _ :: l => l | [] => [] end), (match y1 with _ :: l => l | [] => [] end), rws, cd, qt. split; [now apply calm_pop|]. split; [now apply unmarked_pop|].
  cbn [HtmlInModel.tag_steps HtmlInModel.tag_step]. unfold HtmlInModel.close_tag, skipping. cbn [tags]. unfold calm in C1. rewrite C1. cbv iota. cbn [buf]. change ("" ++ hsays x) with (hsays x).
  assert (F : String.eqb n "h1" = false /\ among HEADINGS n = false /\ among ["p"; "div"; "article"; "section"; "main"] n = true /\ among VOID_TAGS n = false) by (repeat destruct I as [<-|I]; try destruct I; repeat split). destruct F as (-> & -> & -> & F). cbn [bind HtmlInSpec.content]. unfold pop_style. rewrite F.
  unfold HtmlInSpec.hreads, filled. destruct (String.eqb (trim (hsays x)) ""); cbn [negb]; [reflexivity|]. apply done. unfold puts. cbn [fold_left put]. unfold h_paragraph. cbn [hcur with_buf ptitle]. rewrite format0 by exact U1. unfold fit_line. destruct cur as [c|]; [destruct (limited c)|]; reflexivity.
Qed.
(** ** Lists *)
Definition plain_items (l : list string) : list (string * option bullet_format) := map (fun t => (t, None)) l.
Lemma items_run xs : Forall inline_ok xs -> forall sl cur t y its rws cd qt pt, calm t -> unmarked y -> exists t' y', calm t' /\ unmarked y' /\
  tag_steps (HState sl cur "" t y false false false its rws [] "" cd qt pt) (flat_map (fun x => html_element "li" [] (hinline_events x)) xs)
  = Ret (HState sl cur "" t' y' false false false (its ++ plain_items (filter filled (map hreads xs)))%list rws [] "" cd qt pt).
Proof.
  induction 1 as [|x xs OK F IH]; intros sl cur t y its rws cd qt pt C U; [exists t, y; rewrite app_nil_r; auto|].
  cbn [flat_map]. rewrite steps_app. unfold html_element at 1. cbn [HtmlInModel.tag_steps].
  assert (E0 : tag_step (HState sl cur "" t y false false false its rws [] "" cd qt pt) (Open "li" []) = Ret (HState sl cur "" ("li" :: t) (style0 :: y) false false false its rws [] "" cd qt pt)).
  { cbn [HtmlInModel.tag_step]. unfold HtmlInModel.open_tag, skipping. cbn [tags with_tags existsb]. unfold calm in C. rewrite C. rewrite push_plain; [reflexivity|reflexivity|intros v []|exact U]. }
  rewrite E0. cbn [bind]. rewrite steps_app. destruct (inline_run x OK sl cur "" ("li" :: t) (style0 :: y) its rws [] "" cd qt pt) as (t1 & y1 & C1 & U1 & ->); [now apply calm_push|now constructor|]. cbn [bind].
  set (t2 := match t1 with _ :: l => l | [] => [] end). set (y2 := match y1 with _ :: l => l | [] => [] end).
  assert (E1 : tag_steps (HState sl cur ("" ++ hsays x) t1 y1 false false false its rws [] "" cd qt pt) [Close "li"] = Ret (HState sl cur "" t2 y2 false false false (its ++ plain_items (filter filled [hreads x]))%list rws [] "" cd qt pt)).
  { cbn [HtmlInModel.tag_steps HtmlInModel.tag_step]. unfold HtmlInModel.close_tag, skipping. cbn [tags]. unfold calm in C1. rewrite C1. cbv iota. cbn [buf]. change ("" ++ hsays x) with (hsays x). change (String.eqb "li" "h1") with false. change (among HEADINGS "li") with false. change (among ["p"; "div"; "article"; "section"; "main"] "li") with false. change (String.eqb "li" "li") with true. cbv iota.
    cbn [filter]. unfold HtmlInSpec.hreads, filled. destruct (String.eqb (trim (hsays x)) ""); cbn [negb bind plain_items map]; apply done; [now rewrite app_nil_r|]. rewrite format0 by exact U1. reflexivity. }
  rewrite E1. cbn [bind]. destruct (IH sl cur t2 y2 (its ++ plain_items (filter filled [hreads x]))%list rws cd qt pt) as (t3 & y3 & C3 & U3 & E3); [now apply calm_pop|now apply unmarked_pop|].
  exists t3, y3. split; [exact C3|]. split; [exact U3|]. rewrite E3. apply done. f_equal. rewrite <- app_assoc. f_equal. unfold plain_items. rewrite <- map_app. f_equal. cbn [map filter]. destruct (filled (hreads x)); reflexivity.
Qed.
Lemma fold_plain ts : forall s, fold_left (fun sl '(t, f) => if limited sl then add_line t f sl else sl) (plain_items ts) s = fold_left fit_line ts s.
Proof. induction ts as [|a ts IH]; intros s; [reflexivity|]. cbn [plain_items map fold_left]. apply IH. Qed.
Lemma list_does o xs : Forall inline_ok xs -> does (hdoc_events (DList o xs)) (content (DList o xs)).
Proof.
  intros OK sl cur pt t y rws cd qt C U. cbn [hdoc_events]. unfold html_element at 1. set (n := if o then "ol" else "ul"). cbn [HtmlInModel.tag_steps].
  assert (E0 : tag_step (idle sl cur t y rws cd qt pt) (Open n []) = Ret (idle sl cur (n :: t) (style0 :: y) rws cd qt pt)).
  { cbn [HtmlInModel.tag_step]. unfold HtmlInModel.open_tag, skipping. cbn [tags with_tags existsb]. unfold calm in C. rewrite C. replace (among SKIP_TAGS n) with false by now destruct o. cbn [orb]. cbv iota. rewrite push_plain; [now destruct o|now destruct o|intros v []|exact U]. }
  rewrite E0. cbn [bind]. rewrite steps_app. destruct (items_run xs OK sl cur (n :: t) (style0 :: y) [] rws cd qt pt) as (t1 & y1 & C1 & U1 & ->); [apply calm_push; [now destruct o|exact C]|now constructor|]. cbn [bind app].
  exists (match t1 with _ :: l => l | [] => [] end), (match y1 with _ :: l => l | [] => [] end), rws, cd, qt. split; [now apply calm_pop|]. split; [now apply unmarked_pop|].
  cbn [HtmlInModel.tag_steps HtmlInModel.tag_step]. unfold HtmlInModel.close_tag, skipping. cbn [tags]. unfold calm in C1. rewrite C1. cbv iota. cbn [HtmlInSpec.content].
  replace (String.eqb n "h1") with false by now destruct o. replace (among HEADINGS n) with false by now destruct o. replace (among ["p"; "div"; "article"; "section"; "main"] n) with false by now destruct o. replace (String.eqb n "li") with false by now destruct o. replace (among ["ul"; "ol"] n) with true by now destruct o. cbv iota. cbn [bind]. unfold pop_style. replace (among VOID_TAGS n) with false by now destruct o.
  apply done. unfold flush_items. cbn [hitems]. destruct (filter filled (map hreads xs)) as [|a ts]; [reflexivity|]. cbn [plain_items map]. unfold puts. cbn [fold_left put]. f_equal. rewrite <- fold_plain. destruct cur; reflexivity.
Qed.
(** ** Tables *)
Lemma cells_run cs : Forall (fun c : bool * hinline => bare (snd c)) cs -> forall sl cur t y rws rw cd qt pt, calm t -> unmarked y -> exists t' y', calm t' /\ unmarked y' /\
  tag_steps (HState sl cur "" t y true false false [] rws rw "" cd qt pt) (flat_map (fun c : bool * hinline => html_element (if fst c then "th" else "td") [] (hinline_events (snd c))) cs)
  = Ret (HState sl cur "" t' y' true false false [] rws (rw ++ map (fun c => hreads (snd c)) cs)%list "" cd qt pt).
Proof.
  induction 1 as [|c cs B _ IH]; intros sl cur t y rws rw cd qt pt C U; [exists t, y; rewrite app_nil_r; auto|].
  set (n := if fst c then "th" else "td").
  assert (E : exists t' y', calm t' /\ unmarked y' /\ tag_steps (HState sl cur "" t y true false false [] rws rw "" cd qt pt) (html_element n [] (hinline_events (snd c))) = Ret (HState sl cur "" t' y' true false false [] rws (rw ++ [hreads (snd c)])%list "" cd qt pt)).
  { unfold html_element. cbn [HtmlInModel.tag_steps].
    assert (E0 : tag_step (HState sl cur "" t y true false false [] rws rw "" cd qt pt) (Open n []) = Ret (HState sl cur "" (n :: t) (style0 :: y) true false false [] rws rw "" cd qt pt)).
    { cbn [HtmlInModel.tag_step]. unfold HtmlInModel.open_tag, skipping. cbn [tags with_tags existsb]. unfold calm in C. rewrite C. replace (among SKIP_TAGS n) with false by (unfold n; now destruct (fst c)). cbn [orb]. cbv iota. rewrite push_plain; [|unfold n; now destruct (fst c)|intros v []|exact U]. unfold n. now destruct (fst c). }
    rewrite E0. cbn [bind]. rewrite steps_app. destruct (bare_run (snd c) B sl cur (n :: t) (style0 :: y) true false false [] rws rw "" cd qt pt) as (t1 & y1 & C1 & U1 & ->); [apply calm_push; [unfold n; now destruct (fst c)|exact C]|now constructor|reflexivity|].
    cbn [bind negb andb orb]. exists (match t1 with _ :: l => l | [] => [] end), (match y1 with _ :: l => l | [] => [] end). split; [now apply calm_pop|]. split; [now apply unmarked_pop|].
    cbn [HtmlInModel.tag_steps HtmlInModel.tag_step]. unfold HtmlInModel.close_tag, skipping. cbn [tags]. unfold calm in C1. rewrite C1. unfold n. now destruct (fst c). }
  destruct E as (t0 & y0 & C0 & U0 & E). destruct (IH sl cur t0 y0 rws (rw ++ [hreads (snd c)])%list cd qt pt C0 U0) as (t1 & y1 & C1 & U1 & E1). exists t1, y1. split; [exact C1|]. split; [exact U1|].
  cbn [flat_map]. rewrite steps_app. fold n. rewrite E. cbn [bind]. rewrite E1. now rewrite <- app_assoc.
Qed.
Lemma rows_run rs : Forall (fun r => Forall (fun c : bool * hinline => bare (snd c)) r) rs -> forall sl cur t y rws cd qt pt, calm t -> unmarked y -> exists t' y', calm t' /\ unmarked y' /\
  tag_steps (HState sl cur "" t y true false false [] rws [] "" cd qt pt) (flat_map (fun r => html_element "tr" [] (flat_map (fun c : bool * hinline => html_element (if fst c then "th" else "td") [] (hinline_events (snd c))) r)) rs)
  = Ret (HState sl cur "" t' y' true false false [] (rws ++ filter nonempty (map (map (fun c => hreads (snd c))) rs))%list [] "" cd qt pt).
Proof.
  induction 1 as [|r rs B _ IH]; intros sl cur t y rws cd qt pt C U; [exists t, y; rewrite app_nil_r; auto|].
  cbn [flat_map]. unfold html_element at 1. rewrite steps_app. cbn [HtmlInModel.tag_steps].
  assert (E0 : tag_step (HState sl cur "" t y true false false [] rws [] "" cd qt pt) (Open "tr" []) = Ret (HState sl cur "" ("tr" :: t) (style0 :: y) true false false [] rws [] "" cd qt pt)).
  { cbn [HtmlInModel.tag_step]. unfold HtmlInModel.open_tag, skipping. cbn [tags with_tags existsb]. unfold calm in C. rewrite C. rewrite push_plain; [reflexivity|reflexivity|intros v []|exact U]. }
  rewrite E0. cbn [bind]. rewrite steps_app. destruct (cells_run r B sl cur ("tr" :: t) (style0 :: y) rws [] cd qt pt) as (t1 & y1 & C1 & U1 & ->); [now apply calm_push|now constructor|]. cbn [bind app].
  set (t2 := match t1 with _ :: l => l | [] => [] end). set (y2 := match y1 with _ :: l => l | [] => [] end).
  assert (E1 : tag_steps (HState sl cur "" t1 y1 true false false [] rws (map (fun c => hreads (snd c)) r) "" cd qt pt) [Close "tr"] = Ret (HState sl cur "" t2 y2 true false false [] (rws ++ filter nonempty [map (fun c => hreads (snd c)) r])%list [] "" cd qt pt)).
  { cbn [HtmlInModel.tag_steps HtmlInModel.tag_step]. unfold HtmlInModel.close_tag, skipping. cbn [tags]. unfold calm in C1. rewrite C1. destruct (map (fun c => hreads (snd c)) r); [|reflexivity]. cbn [filter nonempty]. rewrite app_nil_r. reflexivity. }
  rewrite E1. cbn [bind]. destruct (IH sl cur t2 y2 (rws ++ filter nonempty [map (fun c => hreads (snd c)) r])%list cd qt pt) as (t3 & y3 & C3 & U3 & E3); [now apply calm_pop|now apply unmarked_pop|].
  exists t3, y3. split; [exact C3|]. split; [exact U3|]. rewrite E3. apply done. f_equal. rewrite <- app_assoc. f_equal. cbn [map filter]. destruct (nonempty _); reflexivity.
Qed.
Lemma table_does rs : hdoc_ok (DTable rs) -> does (hdoc_events (DTable rs)) (content (DTable rs)).
Proof.
  cbn [hdoc_ok]. intros OK sl cur pt t y rws cd qt C U. cbn [hdoc_events]. unfold html_element at 1. cbn [HtmlInModel.tag_steps].
  assert (E0 : tag_step (idle sl cur t y rws cd qt pt) (Open "table" []) = Ret (HState sl cur "" ("table" :: t) (style0 :: y) true false false [] [] [] "" cd qt pt)).
  { cbn [HtmlInModel.tag_step]. unfold HtmlInModel.open_tag, skipping. cbn [tags with_tags existsb]. unfold calm in C. rewrite C. rewrite push_plain; [reflexivity|reflexivity|intros v []|exact U]. }
  rewrite E0. cbn [bind]. rewrite steps_app. destruct (rows_run rs (Forall_impl _ (fun r (H : _ /\ _) => proj2 H) OK) sl cur ("table" :: t) (style0 :: y) [] cd qt pt) as (t1 & y1 & C1 & U1 & ->); [now apply calm_push|now constructor|]. cbn [bind app].
  cbn [HtmlInModel.tag_steps HtmlInModel.tag_step]. unfold HtmlInModel.close_tag, skipping. cbn [tags]. unfold calm in C1. rewrite C1. cbv iota.
  change (String.eqb "table" "h1") with false. change (among HEADINGS "table") with false. change (among ["p"; "div"; "article"; "section"; "main"] "table") with false. change (String.eqb "table" "li") with false. change (among ["ul"; "ol"] "table") with false. change (String.eqb "table" "pre") with false. change (String.eqb "table" "table") with true. cbv iota.
  unfold h_flush_table. cbn [HtmlInSpec.content hrows with_modes].
  assert (B : forall r, In r (filter nonempty (map (map (fun c : bool * hinline => hreads (snd c))) rs)) -> r <> [] /\ (N.of_nat (length r) <= u32_max)%N).
  { intros r I. apply filter_In in I as [I NE]. split; [now destruct r|]. apply in_map_iff in I as (q & <- & I). rewrite map_length. rewrite Forall_forall in OK. now apply (proj1 (OK _ I)). }
  destruct (with_tables options) eqn:WT; cbn [negb].
  - destruct (filter nonempty _) as [|r l] eqn:R.
    + exists (match t1 with _ :: l => l | [] => [] end), (match y1 with _ :: l => l | [] => [] end), [], cd, qt. split; [now apply calm_pop|]. split; [now apply unmarked_pop|]. reflexivity.
    + exists (match t1 with _ :: l => l | [] => [] end), (match y1 with _ :: l => l | [] => [] end), [], cd, qt. split; [now apply calm_pop|]. split; [now apply unmarked_pop|].
      assert (T : table_from_string_rows (r :: l) true <> Panic) by (apply table_made; [discriminate|exact B]). unfold puts. cbn [fold_left put]. destruct (table_from_string_rows (r :: l) true); [|congruence]. reflexivity.
  - exists (match t1 with _ :: l => l | [] => [] end), (match y1 with _ :: l => l | [] => [] end), (filter nonempty (map (map (fun c => hreads (snd c))) rs)), cd, qt. split; [now apply calm_pop|]. split; [now apply unmarked_pop|]. destruct (filter nonempty _); reflexivity.
Qed.
(** ** The other blocks *)
Lemma pre_does x : bare x -> does (hdoc_events (DPre x)) (content (DPre x)).
Proof.
  intros B sl cur pt t y rws cd qt C U. cbn [hdoc_events]. unfold html_element. cbn [HtmlInModel.tag_steps].
  assert (E0 : tag_step (idle sl cur t y rws cd qt pt) (Open "pre" []) = Ret (HState sl cur "" ("pre" :: t) (style0 :: y) false true false [] rws [] "" "" qt pt)).
  { cbn [HtmlInModel.tag_step]. unfold HtmlInModel.open_tag, skipping. cbn [tags with_tags existsb]. unfold calm in C. rewrite C. rewrite push_plain; [reflexivity|reflexivity|intros v []|exact U]. }
  rewrite E0. cbn [bind]. rewrite steps_app. destruct (bare_run x B sl cur ("pre" :: t) (style0 :: y) false true false [] rws [] "" "" qt pt) as (t1 & y1 & C1 & U1 & ->); [now apply calm_push|now constructor|reflexivity|].
  cbn [bind negb andb orb]. change ("" ++ hsays x) with (hsays x).
  assert (E : tag_steps (HState sl cur "" t1 y1 false true false [] rws [] "" (hsays x) qt pt) [Close "pre"]
            = Ret (with_styles (match y1 with _ :: l => l | [] => [] end) (with_tags (match t1 with _ :: l => l | [] => [] end) (h_flush_code trim options (idle sl cur t1 y1 rws (hsays x) qt pt))))).
  { cbn [HtmlInModel.tag_steps HtmlInModel.tag_step]. unfold HtmlInModel.close_tag, skipping. cbn [tags]. unfold calm in C1. rewrite C1. unfold h_flush_code. cbn. destruct (with_codes options); cbn; [destruct (String.eqb (hsays x) ""); reflexivity|reflexivity]. }
  rewrite E. cbn [HtmlInSpec.content]. unfold h_flush_code, filled. cbn [hcode].
  exists (match t1 with _ :: l => l | [] => [] end), (match y1 with _ :: l => l | [] => [] end).
  destruct (with_codes options); cbn [negb orb]; [destruct (String.eqb (hsays x) "") eqn:S0; cbn [negb andb]|rewrite andb_false_r].
  - exists rws, (hsays x), qt. split; [now apply calm_pop|]. split; [now apply unmarked_pop|]. reflexivity.
  - exists rws, "", qt. split; [now apply calm_pop|]. split; [now apply unmarked_pop|]. destruct cur; reflexivity.
  - exists rws, (hsays x), qt. split; [now apply calm_pop|]. split; [now apply unmarked_pop|]. reflexivity.
Qed.
Lemma quote_does x : bare x -> does (hdoc_events (DQuote x)) (content (DQuote x)).
Proof.
  intros B sl cur pt t y rws cd qt C U. cbn [hdoc_events]. unfold html_element. cbn [HtmlInModel.tag_steps].
  assert (E0 : tag_step (idle sl cur t y rws cd qt pt) (Open "blockquote" []) = Ret (HState sl cur "" ("blockquote" :: t) (style0 :: y) false false true [] rws [] "" cd "" pt)).
  { cbn [HtmlInModel.tag_step]. unfold HtmlInModel.open_tag, skipping. cbn [tags with_tags existsb]. unfold calm in C. rewrite C. rewrite push_plain; [reflexivity|reflexivity|intros v []|exact U]. }
  rewrite E0. cbn [bind]. rewrite steps_app. destruct (bare_run x B sl cur ("blockquote" :: t) (style0 :: y) false false true [] rws [] "" cd "" pt) as (t1 & y1 & C1 & U1 & ->); [now apply calm_push|now constructor|reflexivity|].
  cbn [bind negb andb orb]. change ("" ++ hsays x) with (hsays x).
  assert (E : tag_steps (HState sl cur "" t1 y1 false false true [] rws [] "" cd (hsays x) pt) [Close "blockquote"]
            = Ret (with_styles (match y1 with _ :: l => l | [] => [] end) (with_tags (match t1 with _ :: l => l | [] => [] end) (h_flush_quote trim (idle sl cur t1 y1 rws cd (hsays x) pt))))).
  { cbn [HtmlInModel.tag_steps HtmlInModel.tag_step]. unfold HtmlInModel.close_tag, skipping. cbn [tags]. unfold calm in C1. rewrite C1. unfold h_flush_quote. cbn. destruct (String.eqb (trim (hsays x)) ""); reflexivity. }
  rewrite E. cbn [HtmlInSpec.content]. unfold h_flush_quote, filled, HtmlInSpec.hreads. cbn [hquote].
  exists (match t1 with _ :: l => l | [] => [] end), (match y1 with _ :: l => l | [] => [] end), rws, cd, "". split; [now apply calm_pop|]. split; [now apply unmarked_pop|]. destruct (String.eqb (trim (hsays x)) ""); reflexivity.
Qed.
Lemma image_does src alt : does (hdoc_events (DImage src alt)) (content (DImage src alt)).
Proof.
  intros sl cur pt t y rws cd qt C U. cbn [hdoc_events HtmlInSpec.content]. exists ("img" :: t), y, rws, cd, qt. split; [now apply calm_push|]. split; [exact U|].
  cbn [HtmlInModel.tag_steps HtmlInModel.tag_step]. unfold HtmlInModel.open_tag, skipping. cbn [tags with_tags existsb]. unfold calm in C. rewrite C. change (among SKIP_TAGS "img") with false. cbn [orb]. cbv iota.
  change (push_style trim lower upper font_size "img" [("src", src); ("alt", alt)] ?s) with (@Ret hstate s). cbn [bind].
  repeat match goal with |- context [if String.eqb "img" ?k then _ else _] => let b := eval vm_compute in (String.eqb "img" k) in change (String.eqb "img" k) with b; cbv iota | |- context [if among ?l "img" then _ else _] => let b := eval vm_compute in (among l "img") in change (among l "img") with b; cbv iota end.
  change (attr "src" [("src", src); ("alt", alt)]) with src. change (attr "alt" [("src", src); ("alt", alt)]) with alt. unfold filled. rewrite andb_comm. destruct (String.eqb src ""); cbn [negb andb]; [reflexivity|]. destruct (with_images options); [|reflexivity].
  destruct (load_image src) as [i|]; [destruct cur; reflexivity|]. apply done. unfold h_paragraph, puts. cbn [hcur with_tags ptitle fold_left put]. rewrite format0 by exact U. destruct (String.eqb alt ""); cbn [negb]; unfold fit_line; destruct cur as [c|]; try destruct (limited c); reflexivity.
Qed.
Lemma skip_does n s : In n SKIP_TAGS -> does (hdoc_events (DSkip n s)) (content (DSkip n s)).
Proof.
  intros I sl cur pt t y rws cd qt C U. exists t, y, rws, cd, qt. repeat (split; [assumption|]). cbn [hdoc_events HtmlInSpec.content]. unfold html_element, puts. cbn [fold_left app HtmlInModel.tag_steps HtmlInModel.tag_step].
  assert (S : among SKIP_TAGS n = true) by (unfold among; apply existsb_exists; exists n; split; [exact I|apply String.eqb_refl]).
  unfold HtmlInModel.open_tag, skipping. cbn [tags with_tags existsb]. rewrite S. cbn [orb bind]. unfold chars_in, skipping. cbn [tags with_tags existsb]. rewrite S. cbn [orb]. unfold HtmlInModel.close_tag, skipping. cbn [tags with_tags existsb]. rewrite S. reflexivity.
Qed.
Lemma rule_does : does (hdoc_events DRule) (content DRule).
Proof.
  intros sl cur pt t y rws cd qt C U. cbn [hdoc_events HtmlInSpec.content]. exists ("hr" :: t), y, rws, cd, qt. split; [now apply calm_push|]. split; [exact U|].
  cbn [HtmlInModel.tag_steps HtmlInModel.tag_step]. unfold HtmlInModel.open_tag, skipping. cbn [tags with_tags existsb]. unfold calm in C. rewrite C. unfold flush_buf, h_finalize, flush_buf. cbn. rewrite trim_empty. cbn. rewrite trim_empty. cbn. destruct cur; cbn; [reflexivity|]. unfold puts. cbn. now rewrite app_nil_r.
Qed.
Theorem doc_does d : hdoc_ok d -> does (hdoc_events d) (content d).
Proof.
  induction d as [|a IHa b IHb|n attrs d IH|n attrs x|n attrs x|o xs|rs|x|x|src alt|n s|]; intros OK.
  - intros sl cur pt t y rws cd qt C U. exists t, y, rws, cd, qt. auto.
  - destruct OK. cbn [hdoc_events HtmlInSpec.content]. now apply does_app; [apply IHa|apply IHb].
  - destruct OK as (N & NS & OK). intros sl cur pt t y rws cd qt C U. cbn [hdoc_events HtmlInSpec.content]. unfold html_element. cbn [HtmlInModel.tag_steps].
    destruct (open_neutral n attrs sl cur "" t y false false false [] rws [] "" cd qt pt N NS C U) as [-> C0]. cbn [bind]. rewrite steps_app.
    destruct (IH OK sl cur pt (n :: t) (style0 :: y) rws cd qt C0) as (t1 & y1 & r1 & c1 & q1 & C1 & U1 & ->); [now constructor|]. cbn [bind]. destruct (puts (content d) (sl, cur, pt)) as [[sl1 cur1] pt1]. cbn [HtmlInModel.tag_steps]. rewrite close_neutral by auto. cbn [bind].
    exists (match t1 with _ :: l => l | [] => [] end), (match y1 with _ :: l => l | [] => [] end), r1, c1, q1. split; [now apply calm_pop|]. split; [now apply unmarked_pop|]. reflexivity.
  - destruct OK as (L & NS & OK). now apply heading_does.
  - destruct OK as (I & NS & OK). now apply para_does.
  - now apply list_does.
  - now apply table_does.
  - now apply pre_does.
  - now apply quote_does.
  - apply image_does.
  - now apply skip_does.
  - apply rule_does.
Qed.
(** ** The slides *)
Definition total (x : list slide * option slide * option string) : list slide := let '(sl, cur, _) := x in (sl ++ opt cur)%list.
Definition shape_of (c : slide) (title : string) (ls : list string) (els : list item) : Prop := c = html_slide title ls els.
Lemma fold_last {A B} (f : B -> A -> B) l x b : fold_left f (l ++ [x]) b = f (fold_left f l b) x.
Proof. now rewrite fold_left_app. Qed.
Lemma fit_fold ts title : forall ls els, fold_left fit_line ts (html_slide title ls els) = html_slide title (fold_left (fits options) ts ls) els.
Proof.
  assert (E1 : forall t ls els, fit_line (html_slide title ls els) t = html_slide title (fits options ls t) els). { intros t ls els. unfold fit_line, fits, HtmlInModel.limited. cbn [s_content html_slide]. destruct (Nat.ltb (length ls) (max_bullets options)); [|reflexivity]. unfold add_line, html_slide. cbn. now rewrite map_app. }
  induction ts as [|t ts IH]; intros ls els; [reflexivity|]. cbn [fold_left]. now rewrite E1, IH.
Qed.
Definition cells_ok (e : item) : Prop := match e with Cells rs => table_from_string_rows rs true <> Panic | _ => True end.
(** One more item on a slide. *)
Lemma put_on sl title ls els pt e : match e with Title _ | Cut => False | _ => True end -> cells_ok e ->
  put (sl, Some (html_slide title ls els), pt) e = (sl, Some (html_slide title (more_lines options ls e) (els ++ [e])), pt).
Proof.
  intros N K. assert (H : forall e ls', last_table (els ++ [e]) = last_table els -> picts (els ++ [e]) = picts els -> last_note (els ++ [e]) = last_note els -> listings (els ++ [e]) = listings els -> html_slide title ls' (els ++ [e]) = html_slide title ls' els).
  { intros e' ls' H1 H2 H3 H4. unfold html_slide. now rewrite H1, H2, H3, H4. }
  unfold last_table, last_note, picts, listings in H.
  destruct e; try contradiction; cbn [put more_lines].
  - change (fit_line (html_slide title ls els) t) with (fold_left fit_line [t] (html_slide title ls els)). rewrite fit_fold. cbn [fold_left]. rewrite H; [reflexivity|now rewrite fold_last|now rewrite flat_map_app, app_nil_r|now rewrite fold_last|now rewrite flat_map_app, app_nil_r].
  - cbn [or_slide]. rewrite fit_fold. rewrite H; [reflexivity|now rewrite fold_last|now rewrite flat_map_app, app_nil_r|now rewrite fold_last|now rewrite flat_map_app, app_nil_r].
  - cbn [or_slide]. rewrite H; [|now rewrite fold_last|now rewrite flat_map_app, app_nil_r|now rewrite fold_last|now rewrite flat_map_app, app_nil_r]. unfold add_line, html_slide. cbn. now rewrite map_app.
  - cbn [cells_ok] in K. destruct (table_from_string_rows rows true) as [tb|] eqn:T; [|congruence]. cbn [or_slide]. unfold html_slide, last_table, last_note, picts, listings. rewrite !fold_last, !flat_map_app, T. cbn. now rewrite !app_nil_r.
  - cbn [or_slide]. unfold html_slide, last_table, last_note, picts, listings. rewrite !fold_last, !flat_map_app. cbn. now rewrite !app_nil_r.
  - cbn [or_slide]. unfold html_slide, last_table, last_note, picts, listings. rewrite !fold_last, !flat_map_app. cbn. now rewrite !app_nil_r.
  - cbn [option_map]. unfold html_slide, last_table, last_note, picts, listings. rewrite !fold_last, !flat_map_app. cbn. now rewrite !app_nil_r.
Qed.
Definition plain_item (e : item) : Prop := match e with Title _ | Cut => False | _ => True end.
Lemma puts_on l : forall sl title ls els pt, Forall plain_item l -> Forall cells_ok l ->
  puts l (sl, Some (html_slide title ls els), pt) = (sl, Some (html_slide title (fold_left (more_lines options) l ls) (els ++ l)), pt).
Proof.
  induction l as [|e l IH]; intros sl title ls els pt P K; [now rewrite app_nil_r|]. inversion_clear P. inversion_clear K. unfold puts in *. cbn [fold_left]. rewrite put_on by assumption. rewrite IH by assumption. now rewrite <- app_assoc.
Qed.
Lemma new_slide t : slide_new t = html_slide t [] []. Proof. reflexivity. Qed.
Lemma puts_untitled l : forall sl pt, Forall plain_item l -> Forall cells_ok l -> puts l (sl, None, pt) = (sl, hd_error (untitled_part options pt l), pt) /\ length (untitled_part options pt l) <= 1.
Proof.
  induction l as [|e l IH]; intros sl pt P K; [now split; [|cbn; lia]|]. inversion P; inversion K; subst.
  assert (G : forall title, match e with Para _ | Title _ | Cut | Note _ => False | _ => True end -> put (sl, None, pt) e = put (sl, Some (slide_new title), pt) e -> puts (e :: l) (sl, None, pt) = (sl, Some (html_slide title (fold_left (more_lines options) (e :: l) []) (e :: l)), pt)).
  { intros title S E. unfold puts. cbn [fold_left]. rewrite E. change (fold_left put l (put (sl, Some (slide_new title), pt) e)) with (puts (e :: l) (sl, Some (slide_new title), pt)). rewrite new_slide, puts_on by assumption. reflexivity. }
  destruct e; try contradiction; cbn [untitled_part hd_error length].
  - split; [|lia]. unfold puts. cbn [fold_left put]. change (add_line t None (slide_new (or_else pt "Overview"))) with (html_slide (or_else pt "Overview") [t] [Para t]). change (fold_left put l ?x) with (puts l x). rewrite puts_on by assumption. reflexivity.
  - split; [|lia]. now apply G.
  - split; [|lia]. now apply G.
  - split; [|lia]. apply G; [exact I|]. cbn [put]. match goal with H : cells_ok (Cells rows) |- _ => cbn [cells_ok] in H end. destruct (table_from_string_rows rows true); [reflexivity|congruence].
  - split; [|lia]. now apply G.
  - split; [|lia]. now apply G.
  - cbn [untitled_part]. unfold puts in *. cbn [fold_left put option_map]. now apply IH.
Qed.
Lemma parts_shape l : let '(els, ps) := parts_of l in Forall plain_item els /\ (Forall cells_ok l -> Forall cells_ok els /\ Forall (fun p => Forall plain_item (snd p) /\ Forall cells_ok (snd p)) ps) .
Proof.
  induction l as [|e l IH]; cbn [parts_of]; [repeat constructor|]. destruct (parts_of l) as [els ps]. destruct IH as [P IH].
  destruct e; (split; [repeat constructor; exact P || assumption|]); intros K; inversion_clear K; destruct (IH H0) as [K1 K2]; repeat constructor; cbn; auto.
Qed.
Fixpoint run_parts (ps : list (option string * list item)) (x : list slide * option slide * option string) :=
  match ps with [] => x | (h, els) :: ps => run_parts ps (puts els (put x (match h with Some t => Title t | None => Cut end))) end.
Lemma puts_parts l : forall x, puts l x = let '(els, ps) := parts_of l in run_parts ps (puts els x).
Proof.
  induction l as [|e l IH]; intros x; [reflexivity|]. cbn [parts_of]. unfold puts in *. cbn [fold_left]. rewrite IH. destruct (parts_of l) as [els ps]. destruct e; reflexivity.
Qed.
Lemma total_untitled l sl pt : Forall plain_item l -> Forall cells_ok l -> total (puts l (sl, None, pt)) = (sl ++ untitled_part options pt l)%list.
Proof. intros P K. destruct (puts_untitled l sl pt P K) as [-> L]. cbn. destruct (untitled_part options pt l) as [|a [|b r]]; cbn in *; try reflexivity. lia. Qed.
Lemma run_slides ps : Forall (fun p => Forall plain_item (snd p) /\ Forall cells_ok (snd p)) ps -> forall sl cur pt, total (run_parts ps (sl, cur, pt)) = (sl ++ opt cur ++ part_slides options pt ps)%list.
Proof.
  induction 1 as [|[[t|] els] ps [P K] F IH]; intros sl cur pt; cbn [run_parts].
  - cbn. now rewrite app_nil_r.
  - cbn [put]. rewrite new_slide, puts_on by assumption. rewrite IH. cbn [part_slides opt]. now rewrite <- app_assoc.
  - cbn [put]. destruct (puts_untitled els (sl ++ opt cur)%list pt P K) as [-> L]. rewrite IH. cbn [part_slides]. rewrite <- app_assoc. f_equal. f_equal. f_equal. destruct (untitled_part options pt els) as [|a [|b r]]; cbn in *; try reflexivity. lia.
Qed.
Lemma content_cells d : hdoc_ok d -> Forall cells_ok (content d).
Proof.
  induction d as [|a IHa b IHb|n attrs d IH|n attrs x|n attrs x|o xs|rs|x|x|src alt|n s|]; intros OK; cbn [HtmlInSpec.content]; cbn [hdoc_ok] in OK; repeat constructor.
  - apply Forall_app. destruct OK. split; auto.
  - apply IH, OK.
  - destruct n as [|[|n]]; try destruct (filled _); repeat constructor.
  - destruct (filled _); repeat constructor.
  - destruct (filter _ _); repeat constructor.
  - destruct (filter nonempty _) as [|r l] eqn:R; [constructor|]. destruct (with_tables options); [|constructor]. repeat constructor. cbn [cells_ok]. apply table_made; [discriminate|]. rewrite <- R. intros q I. apply filter_In in I as [I NE]. split; [now destruct q|]. apply in_map_iff in I as (w & <- & I). rewrite map_length. rewrite Forall_forall in OK. now apply (proj1 (OK _ I)).
  - destruct (_ && _); repeat constructor.
  - destruct (filled _); repeat constructor.
  - destruct (_ && _); [|constructor]. destruct (load_image src); repeat constructor.
Qed.
Lemma content_total d : hdoc_ok d -> total (puts (content d) ([], None, None)) = html_deck trim load_image options d.
Proof.
  intros OK. unfold html_deck. assert (S := parts_shape (content d)). rewrite puts_parts. destruct (parts_of (content d)) as [els ps]. destruct S as [P S]. destruct (S (content_cells d OK)) as [K F].
  destruct (puts_untitled els [] None P K) as [-> L]. rewrite run_slides by exact F. cbn [part_slides app]. destruct (untitled_part options None els) as [|a [|b r]]; cbn in *; try reflexivity. lia.
Qed.
Theorem doc_deck d : hdoc_ok d -> parse_events (hdoc_events d) = Ret (match html_deck trim load_image options d with [] => None | l => Some (firstn (max_slides options) l) end).
Proof.
  intros OK. unfold HtmlInModel.parse_events. destruct (doc_does d OK [] None None [] [] [] "" "") as (t & y & rws & cd & qt & C & U & E); [reflexivity|constructor|].
  change hstate0 with (idle [] None [] [] [] "" "" None). rewrite E. cbn [bind]. rewrite <- content_total by exact OK. destruct (puts (content d) ([], None, None)) as [[sl cur] pt]. unfold h_finalize, flush_buf. cbn [buf]. rewrite trim_empty. cbn [String.eqb]. unfold flush_items. cbn [hitems with_buf hcur]. destruct cur; cbn [total opt hslides with_cur with_slides]; [|rewrite app_nil_r]; reflexivity || (destruct sl; reflexivity).
Qed.
End D.
