(** Lemmas: the exported HTML, read as tags and texts. *)
From Coq Require Import String Ascii List Bool Arith NArith Lia.
From Verif Require Import Str EscapeModel EscapeProofs Base64Model Base64Proofs TableModel ShapeModel SlideModel DeckModel ExportModel HtmlSpec MdWant HtmlWant MdProofs.
Import ListNotations.
Open Scope nat_scope.
Open Scope string_scope.

Notation run := (sfold hstep).
Lemma run_app s t st : run (s ++ t) st = run t (run s st).
Proof. apply sfold_app. Qed.
Lemma add_app b c s : add b c ++ s = b ++ String c s.
Proof. unfold add. now rewrite sapp_assoc. Qed.

(** Texts that read as [t] in an element. *)
Definition rtext (raw t : string) : Prop := forall b out, run raw (Some (HText b, out)) = Some (HText (b ++ t), out).
Definition shown (c : ascii) : bool := negb (Ascii.eqb c "<" || Ascii.eqb c "&").
Lemma rtext_plain s : sforall shown s = true -> rtext s s.
Proof.
  induction s as [|c s IH]; intros H b out; [cbn; now rewrite sapp_nil_r|]. cbn [sforall] in H. apply andb_true_iff in H. destruct H as [H1 H2]. unfold shown in H1. apply negb_true_iff, orb_false_iff in H1. destruct H1 as [A B].
  cbn [sfold hstep]. rewrite A, B, (IH H2). now rewrite add_app.
Qed.
Lemma html_plain_shown s : html_plain s = true -> sforall shown s = true.
Proof. apply sforall_weaken. intros c. unfold shown. rewrite !negb_true_iff, !orb_false_iff. tauto. Qed.
Lemma rtext_app r1 t1 r2 t2 : rtext r1 t1 -> rtext r2 t2 -> rtext (r1 ++ r2) (t1 ++ t2).
Proof. intros A B b out. now rewrite run_app, A, B, sapp_assoc. Qed.
Lemma rtext_ref e x : reference e = Some x -> sforall (fun c => negb (Ascii.eqb c ";")) e = true -> rtext ("&" ++ e ++ ";") x.
Proof.
  intros E F b out. cbn [append sfold hstep Ascii.eqb Bool.eqb]. rewrite run_app.
  assert (R : forall e d, sforall (fun c => negb (Ascii.eqb c ";")) e = true -> run e (Some (HRef b d, out)) = Some (HRef b (d ++ e), out)).
  { clear. induction e as [|c e IH]; intros d H; [cbn; now rewrite sapp_nil_r|]. cbn [sforall] in H. apply andb_true_iff in H. destruct H as [H1 H2]. apply negb_true_iff in H1.
    cbn [sfold hstep]. rewrite H1, (IH _ H2). now rewrite add_app. }
  rewrite R by assumption. cbn [sfold hstep append Ascii.eqb Bool.eqb]. now rewrite E.
Qed.
Lemma rtext_escaped s : rtext (escape_html s) s.
Proof.
  rewrite escape_html_map. induction s as [|c s IH]; cbn [smap]; [intros b out; cbn; now rewrite sapp_nil_r|].
  change (String c s) with (s1 c ++ s). apply rtext_app; [|assumption].
  destruct (Ascii.eqb_spec c "&") as [->|N1]; [apply (rtext_ref "amp"); reflexivity|]. destruct (Ascii.eqb_spec c "<") as [->|N2]; [apply (rtext_ref "lt"); reflexivity|].
  destruct (Ascii.eqb_spec c ">") as [->|N3]; [apply (rtext_ref "gt"); reflexivity|]. destruct (Ascii.eqb_spec c DQ) as [->|N4]; [apply (rtext_ref "quot"); reflexivity|].
  destruct (Ascii.eqb_spec c SQ) as [->|N5]; [apply (rtext_ref "#39"); reflexivity|].
  replace (esc_char c) with (s1 c) by (unfold esc_char; apply Ascii.eqb_neq in N1, N2, N3, N4, N5; now rewrite N1, N2, N3, N4, N5).
  apply rtext_plain. cbn [s1 sforall]. unfold shown. rewrite andb_true_r. apply negb_true_iff, orb_false_iff. split; now apply Ascii.eqb_neq.
Qed.

(** Tags. *)
Definition tag_ok (t : string) : bool := sforall (fun c => negb (Ascii.eqb c ">")) t && negb (String.eqb t "style" || String.eqb t "script").
Lemma run_tag_body t d out : sforall (fun c => negb (Ascii.eqb c ">")) t = true -> run t (Some (HTag d, out)) = Some (HTag (d ++ t), out).
Proof.
  revert d. induction t as [|c e IH]; intros d H; [cbn; now rewrite sapp_nil_r|]. cbn [sforall] in H. apply andb_true_iff in H. destruct H as [H1 H2]. apply negb_true_iff in H1.
  cbn [sfold hstep]. rewrite H1, (IH _ H2). now rewrite add_app.
Qed.
Lemma run_tag t b out : tag_ok t = true -> run ("<" ++ t ++ ">") (Some (HText b, out)) = Some (HText "", app (app out (text b)) [Tag t]).
Proof.
  unfold tag_ok. rewrite andb_true_iff, negb_true_iff. intros [A B]. cbn [append sfold hstep Ascii.eqb Bool.eqb]. rewrite run_app, run_tag_body by assumption.
  cbn [sfold hstep append Ascii.eqb Bool.eqb]. now rewrite B.
Qed.

(** A part of the page between white space. *)
Definition piece (s : string) (toks : list token) : Prop :=
  forall b out, blank b = true -> exists b', blank b' = true /\ run s (Some (HText b, out)) = Some (HText b', app out toks).
Lemma piece_nil : piece "" [].
Proof. intros b out B. exists b. split; [assumption|]. cbn. now rewrite app_nil_r. Qed.
Lemma piece_app s1 t1 s2 t2 : piece s1 t1 -> piece s2 t2 -> piece (s1 ++ s2) (app t1 t2).
Proof. intros P Q b out B. destruct (P b out B) as (b1 & B1 & E1). destruct (Q b1 (app out t1) B1) as (b2 & B2 & E2). exists b2. split; [assumption|]. now rewrite run_app, E1, E2, app_assoc. Qed.
Lemma piece_nl : piece nl [].
Proof. intros b out B. exists (b ++ nl). split; [unfold blank in *; now rewrite sforall_app, B|]. rewrite app_nil_r. now apply (rtext_plain nl). Qed.
Lemma piece_tag t : tag_ok t = true -> piece ("<" ++ t ++ ">") [Tag t].
Proof. intros T b out B. exists "". split; [reflexivity|]. rewrite run_tag by assumption. unfold text. now rewrite B, app_nil_r. Qed.
Lemma piece_el n a s toks : tag_ok (n ++ a) = true -> tag_ok ("/" ++ n) = true -> piece s toks -> piece ("<" ++ (n ++ a) ++ ">" ++ s ++ "</" ++ n ++ ">") (el_with n a toks).
Proof.
  intros A B P. unfold el_with. change (Tag (n ++ a) :: app toks [Tag ("/" ++ n)]) with (app [Tag (n ++ a)] (app toks [Tag ("/" ++ n)])).
  replace ("<" ++ (n ++ a) ++ ">" ++ s ++ "</" ++ n ++ ">") with (("<" ++ (n ++ a) ++ ">") ++ s ++ ("<" ++ ("/" ++ n) ++ ">")) by (rewrite !sapp_assoc; reflexivity).
  apply piece_app; [now apply piece_tag|]. apply piece_app; [assumption|now apply piece_tag].
Qed.
Lemma piece_leaf n a raw t : tag_ok (n ++ a) = true -> tag_ok ("/" ++ n) = true -> rtext raw t -> piece ("<" ++ (n ++ a) ++ ">" ++ raw ++ "</" ++ n ++ ">") (el_with n a (text t)).
Proof.
  intros A B P b out E. exists "". split; [reflexivity|].
  replace ("<" ++ (n ++ a) ++ ">" ++ raw ++ "</" ++ n ++ ">") with (("<" ++ (n ++ a) ++ ">") ++ raw ++ ("<" ++ ("/" ++ n) ++ ">")) by (rewrite !sapp_assoc; reflexivity).
  rewrite run_app, run_tag, run_app, P, run_tag by assumption. replace (text b) with (@nil token) by (unfold text; now rewrite E). rewrite app_nil_r. unfold el_with. cbn [append]. now rewrite <- !app_assoc.
Qed.
(** An element, then text, to the end of the enclosing element. *)
Lemma piece_tail n s toks raw t : (forall b out, blank b = true -> run s (Some (HText b, out)) = Some (HText "", app out toks)) -> tag_ok ("/" ++ n) = true -> rtext raw t ->
  piece (s ++ raw ++ "</" ++ n ++ ">") (app toks (app (text t) [Tag ("/" ++ n)])).
Proof.
  intros A B P b out E. exists "". split; [reflexivity|]. change ("</" ++ n ++ ">") with ("<" ++ ("/" ++ n) ++ ">").
  rewrite run_app, A, run_app, P, run_tag by assumption. cbn [append]. now rewrite <- !app_assoc.
Qed.
Lemma piece_list {A} (f : A -> string) (g : A -> list token) l : Forall (fun x => piece (f x) (g x)) l -> piece (sconcat (map f l)) (flat_map g l).
Proof. induction 1; [apply piece_nil|]. cbn [map flat_map]. apply (piece_app (f x)); assumption. Qed.
Lemma piece_line s t : piece s t -> piece (s ++ nl) t.
Proof. intros P. rewrite <- (app_nil_r t). apply piece_app; [assumption|apply piece_nl]. Qed.
Lemma piece_nl_first s t : piece s t -> piece (nl ++ s) t.
Proof. intros P. apply (piece_app nl []); [apply piece_nl|assumption]. Qed.
Lemma piece_read s t : piece s t -> html_read s = Some t.
Proof.
  intros P. destruct (P "" [] eq_refl) as (b & B & E). unfold html_read. rewrite E. unfold text. now rewrite B, app_nil_r.
Qed.
Lemma eq_piece s s' t : s = s' -> piece s' t -> piece s t.
Proof. now intros ->. Qed.
Ltac pieces w := eapply (eq_piece _ w); [unfold att, dq, nl; rewrite ?sapp_assoc; cbn [append s1]; reflexivity|].

(** Raw text. *)
Fixpoint raw_ok (s : string) : bool :=
  match s with
  | "" => true
  | String c r => (if Ascii.eqb c "<" then match r with String d _ => negb (Ascii.eqb d "/" || Ascii.eqb d "<") | "" => false end else true) && raw_ok r
  end.
Lemma run_raw s : forall b out, raw_ok s = true -> run s (Some (HRaw b, out)) = Some (HRaw (b ++ s), out).
Proof.
  assert (G : forall n s, String.length s <= n -> forall b out, raw_ok s = true -> run s (Some (HRaw b, out)) = Some (HRaw (b ++ s), out)).
  { induction n as [|n IH]; intros [|c [|d r]] L b out H; cbn [String.length] in L; try lia; try (cbn; now rewrite sapp_nil_r).
    - cbn [raw_ok] in H. cbn [sfold hstep]. destruct (Ascii.eqb c "<"); [discriminate|]. reflexivity.
    - cbn [raw_ok] in H. apply andb_true_iff in H. destruct H as [H1 H2]. cbn [sfold]. destruct (Ascii.eqb c "<") eqn:E.
      + apply negb_true_iff, orb_false_iff in H1. destruct H1 as [D1 D2]. cbn [raw_ok] in H2. rewrite D2 in H2.
        assert (E1 : hstep (Some (HRaw b, out)) c = Some (HRawLt b, out)) by (cbn [hstep]; now rewrite E). rewrite E1.
        assert (E2 : hstep (Some (HRawLt b, out)) d = Some (HRaw (b ++ "<" ++ s1 d), out)) by (cbn [hstep]; now rewrite D1). rewrite E2. rewrite (IH r) by (try lia; assumption).
        apply Ascii.eqb_eq in E. subst c. rewrite !sapp_assoc. reflexivity.
      + assert (E1 : hstep (Some (HRaw b, out)) c = Some (HRaw (add b c), out)) by (cbn [hstep]; now rewrite E). rewrite E1.
        change (run r (hstep (Some (HRaw (add b c), out)) d)) with (run (String d r) (Some (HRaw (add b c), out))). rewrite (IH (String d r)) by (try assumption; cbn [String.length]; lia).
        now rewrite add_app. }
  intros. now apply (G (String.length s)).
Qed.
Lemma piece_raw n s : (n = "style" \/ n = "script") -> raw_ok s = true -> blank s = false -> piece ("<" ++ n ++ ">" ++ s ++ "</" ++ n ++ ">") (el n [Text s]).
Proof.
  intros N R B b out E. exists "". split; [reflexivity|].
  assert (T : run ("<" ++ n ++ ">") (Some (HText b, out)) = Some (HRaw "", app out [Tag n])).
  { cbn [append sfold hstep Ascii.eqb Bool.eqb]. rewrite run_app, run_tag_body by (destruct N; subst; reflexivity). cbn [sfold hstep append Ascii.eqb Bool.eqb]. unfold text. rewrite E, app_nil_r. destruct N; subst; reflexivity. }
  replace ("<" ++ n ++ ">" ++ s ++ "</" ++ n ++ ">") with (("<" ++ n ++ ">") ++ s ++ "</" ++ (n ++ ">")) by (rewrite !sapp_assoc; reflexivity).
  rewrite run_app, T, run_app, run_raw by assumption. cbn [append sfold hstep Ascii.eqb Bool.eqb]. rewrite run_app, run_tag_body by (destruct N; subst; reflexivity). cbn [sfold hstep append Ascii.eqb Bool.eqb].
  unfold text. rewrite B. unfold el. cbn [app append]. rewrite <- !app_assoc. destruct N; subst; reflexivity.
Qed.

(** ** Slides *)
Lemma html_plain_tag s : html_plain s = true -> sforall (fun c => negb (Ascii.eqb c ">")) s = true.
Proof. apply sforall_weaken. intros c. rewrite !negb_true_iff, !orb_false_iff. tauto. Qed.
Lemma digits_tag n : sforall (fun c => negb (Ascii.eqb c ">")) (decn n) = true /\ sforall shown (decn n) = true /\ blank (decn n) = false.
Proof.
  pose proof (decn_digits n) as H. repeat split.
  - revert H. apply sforall_weaken. intros c. unfold is_digit. destruct c as [[] [] [] [] [] [] [] []]; try discriminate; reflexivity.
  - revert H. apply sforall_weaken. intros c. unfold is_digit. destruct c as [[] [] [] [] [] [] [] []]; try discriminate; reflexivity.
  - pose proof (decn_nonempty n) as N. destruct (decn n) as [|c s]; [contradiction|]. cbn [sforall] in H. apply andb_true_iff in H. destruct H as [H _]. unfold blank. cbn [sforall].
    destruct c as [[] [] [] [] [] [] [] []]; try discriminate; reflexivity.
Qed.
Lemma tag_split n v : (sforall (fun c => negb (Ascii.eqb c ">")) n = true) -> sforall (fun c => negb (Ascii.eqb c ">")) v = true -> negb (String.eqb (n ++ v) "style" || String.eqb (n ++ v) "script") = true -> tag_ok (n ++ v) = true.
Proof. intros A B C. unfold tag_ok. rewrite sforall_app, A, B. exact C. Qed.
Lemma mime_tag f : sforall (fun c => negb (Ascii.eqb c ">")) (html_mime f) = true.
Proof. unfold html_mime. repeat destruct (String.eqb _ _); reflexivity. Qed.
Lemma b64_tag s : sforall (fun c => negb (Ascii.eqb c ">")) (base64_encode s) = true.
Proof. generalize (encode_out s). apply sforall_weaken. intros c. destruct c as [[] [] [] [] [] [] [] []]; vm_compute; congruence. Qed.
Lemma img_tag src name : sforall (fun c => negb (Ascii.eqb c ">")) src = true -> sforall (fun c => negb (Ascii.eqb c ">")) name = true -> tag_ok ("img" ++ att "src" src ++ att "alt" name ++ " /") = true.
Proof. intros A B. apply tag_split; [reflexivity| |reflexivity]. unfold att. rewrite !sforall_app, A, B. reflexivity. Qed.
Lemma piece_image o i : html_dir_ok o = true -> html_plain (im_name i) = true -> html_plain (im_format i) = true -> piece (html_image o i) (want_img o i).
Proof.
  intros D N F. apply html_plain_tag in N, F. unfold html_image, want_img. destruct (im_bytes i) as [b|]; [|apply piece_nil]. cbv zeta.
  match goal with |- context [att "src" ?x] => set (src := x) end.
  assert (S : sforall (fun c => negb (Ascii.eqb c ">")) src = true).
  { unfold html_dir_ok in D. subst src. destruct (ho_files o); [destruct (ho_dir o) as [d|]|].
    - apply html_plain_tag in D. rewrite !sforall_app, N, F, D. reflexivity.
    - rewrite !sforall_app, N, F. reflexivity.
    - rewrite !sforall_app, mime_tag, b64_tag. reflexivity. }
  assert (P : piece (("<" ++ ("div" ++ att "class" "image-container") ++ ">" ++ ("<" ++ ("img" ++ att "src" src ++ att "alt" (im_name i) ++ " /") ++ ">") ++ "</" ++ "div" ++ ">") ++ nl)
     (el_with "div" (att "class" "image-container") [Tag ("img" ++ att "src" src ++ att "alt" (im_name i) ++ " /")])).
  { apply piece_line, piece_el; [reflexivity|reflexivity|]. now apply piece_tag, img_tag. }
  eapply eq_piece; [|exact P]. subst src. clear. destruct (ho_files o); [destruct (ho_dir o) as [d|]|]; unfold att, dq, nl; rewrite !sapp_assoc; cbn [append s1]; rewrite ?sapp_assoc; reflexivity.
Qed.
Lemma piece_code o c : html_plain (cb_lang c) = true -> piece (html_code o c) (want_code o c).
Proof.
  intros L. apply html_plain_tag in L. unfold html_code, want_code. set (a := if ho_highlight o then att "class" ("language-" ++ cb_lang c) else "").
  assert (P : piece (("<" ++ ("pre" ++ "") ++ ">" ++ ("<" ++ ("code" ++ a) ++ ">" ++ escape_html (cb_code c) ++ "</" ++ "code" ++ ">") ++ "</" ++ "pre" ++ ">") ++ nl)
     (el_with "pre" "" (el_with "code" a (text (cb_code c))))).
  { apply piece_line, piece_el; [reflexivity|reflexivity|]. apply piece_leaf; [|reflexivity|apply rtext_escaped]. apply tag_split; [reflexivity| |subst a; destruct (ho_highlight o); reflexivity].
    subst a. destruct (ho_highlight o); [|reflexivity]. unfold att. rewrite !sforall_app, L. reflexivity. }
  eapply eq_piece; [|exact P]. subst a. clear. destruct (ho_highlight o); unfold att, dq, nl; rewrite !sapp_assoc; cbn [append s1]; rewrite ?sapp_assoc; reflexivity.
Qed.
Lemma text_some s : blank s = false -> text s = [Text s].
Proof. intros H. unfold text. now rewrite H. Qed.
Lemma piece_simple n raw t : tag_ok (n ++ "") = true -> tag_ok ("/" ++ n) = true -> rtext raw t -> piece ("<" ++ n ++ ">" ++ raw ++ "</" ++ n ++ ">") (el n (text t)).
Proof. intros A B R. pose proof (piece_leaf n "" raw t A B R) as P. unfold el_with in P. rewrite sapp_nil_r in P. exact P. Qed.
Lemma piece_box n s t : tag_ok (n ++ "") = true -> tag_ok ("/" ++ n) = true -> piece s t -> piece ("<" ++ n ++ ">" ++ s ++ "</" ++ n ++ ">") (el n t).
Proof. intros A B R. pose proof (piece_el n "" s t A B R) as P. unfold el_with in P. rewrite sapp_nil_r in P. exact P. Qed.

Lemma piece_bullets l : forallb html_plain l = true ->
  piece match l with [] => "" | _ => "<ul>" ++ nl ++ sconcat (map (fun item => "<li>" ++ item ++ "</li>" ++ nl) l) ++ "</ul>" ++ nl end
    (if match l with [] => true | _ => false end then [] else el "ul" (flat_map (fun t => el "li" (text t)) l)).
Proof.
  intros H. destruct l as [|x l]; [apply piece_nil|]. set (m := x :: l) in *. clearbody m.
  eapply (eq_piece _ (("<" ++ "ul" ++ ">" ++ (nl ++ sconcat (map (fun item => "<li>" ++ item ++ "</li>" ++ nl) m)) ++ "</" ++ "ul" ++ ">") ++ nl)); [rewrite !sapp_assoc; reflexivity|].
  apply piece_line, piece_box; [reflexivity|reflexivity|]. apply piece_nl_first, piece_list. apply Forall_forall. intros t T. rewrite forallb_forall in H.
  eapply (eq_piece _ (("<" ++ "li" ++ ">" ++ t ++ "</" ++ "li" ++ ">") ++ nl)); [rewrite !sapp_assoc; reflexivity|]. apply piece_line, piece_simple; [reflexivity|reflexivity|].
  now apply rtext_plain, html_plain_shown, H.
Qed.
Lemma piece_table : piece html_table (el_with "table" (att "class" "ppt-table") (el "tbody" (el "tr" (el "td" [Text "Table content"])))).
Proof.
  eapply (eq_piece _ (("<" ++ ("table" ++ att "class" "ppt-table") ++ ">" ++ (nl ++ (("<" ++ "tbody" ++ ">" ++ (nl ++ (("<" ++ "tr" ++ ">" ++ ("<" ++ "td" ++ ">" ++ "Table content" ++ "</" ++ "td" ++ ">") ++ "</" ++ "tr" ++ ">") ++ nl)) ++ "</" ++ "tbody" ++ ">") ++ nl)) ++ "</" ++ "table" ++ ">") ++ nl)); [reflexivity|].
  apply piece_line, piece_el; [reflexivity|reflexivity|]. apply piece_nl_first, piece_line, piece_box; [reflexivity|reflexivity|]. apply piece_nl_first, piece_line, piece_box; [reflexivity|reflexivity|].
  change [Text "Table content"] with (text "Table content"). apply piece_simple; [reflexivity|reflexivity|]. now apply rtext_plain.
Qed.
Lemma piece_notes n : piece ("<div class=""speaker-notes""><strong>Notes:</strong> " ++ escape_html n ++ "</div>" ++ nl)
  (el_with "div" (att "class" "speaker-notes") (app (el "strong" [Text "Notes:"]) (text (" " ++ n)))).
Proof.
  eapply (eq_piece _ ((("<" ++ ("div" ++ att "class" "speaker-notes") ++ ">") ++ ("<strong>Notes:</strong>" ++ (" " ++ escape_html n) ++ "</" ++ "div" ++ ">")) ++ nl)); [rewrite !sapp_assoc; reflexivity|].
  apply piece_line. unfold el_with. change (Tag ("div" ++ att "class" "speaker-notes") :: ?l) with (app [Tag ("div" ++ att "class" "speaker-notes")] l).
  apply piece_app; [apply piece_tag; reflexivity|]. rewrite <- app_assoc. apply piece_tail; [|reflexivity|].
  - intros b out B. change "<strong>Notes:</strong>" with (("<" ++ "strong" ++ ">") ++ "Notes:" ++ ("<" ++ "/strong" ++ ">")). rewrite run_app, run_tag, run_app, (rtext_plain "Notes:"), run_tag by reflexivity.
    replace (text b) with (@nil token) by (unfold text; now rewrite B). rewrite app_nil_r, <- !app_assoc. reflexivity.
  - apply rtext_app; [now apply rtext_plain|apply rtext_escaped].
Qed.
Lemma piece_slide o k s : html_dir_ok o = true -> html_slide_ok o s = true -> piece (html_slide o (k + 1) s) (want_page o (k + 1, s)).
Proof.
  intros D. unfold html_slide_ok. rewrite !andb_true_iff. intros [[[T C] I] K]. rewrite !forallb_forall in *. unfold html_slide, want_page. generalize (k + 1). intros n. clear k.
  assert (U := piece_bullets (s_content s)). rewrite forallb_forall in U. specialize (U C). revert U.
  match goal with |- piece ?u ?tu -> _ => set (su := u) at 1; set (tku := tu) end. intros U.
  assert (B : piece match s_table s with Some _ => html_table | None => "" end match s_table s with Some _ => el_with "table" (att "class" "ppt-table") (el "tbody" (el "tr" (el "td" [Text "Table content"]))) | None => [] end)
    by (destruct (s_table s); [apply piece_table|apply piece_nil]).
  assert (P : piece (sconcat (map (html_image o) (s_images s))) (flat_map (want_img o) (s_images s))).
  { apply piece_list, Forall_forall. intros i J. specialize (I i J). cbv beta in I. apply andb_true_iff in I. now apply piece_image. }
  assert (Q : piece (sconcat (map (html_code o) (s_code s))) (flat_map (want_code o) (s_code s))).
  { apply piece_list, Forall_forall. intros c J. now apply piece_code, K. }
  assert (N : piece (if ho_notes o then match s_notes s with Some n => "<div class=""speaker-notes""><strong>Notes:</strong> " ++ escape_html n ++ "</div>" ++ nl | None => "" end else "")
     match s_notes s with Some n => if ho_notes o then el_with "div" (att "class" "speaker-notes") (app (el "strong" [Text "Notes:"]) (text (" " ++ n))) else [] | None => [] end).
  { destruct (ho_notes o), (s_notes s) as [t|]; try apply piece_nil. apply piece_notes. }
  set (sb := match s_table s with Some _ => html_table | None => "" end) in *. set (sp := sconcat (map (html_image o) (s_images s))) in *. set (sc := sconcat (map (html_code o) (s_code s))) in *.
  match type of N with piece ?x ?y => set (sn := x) in *; set (tn := y) in * end.
  eapply (eq_piece _ (("<" ++ ("div" ++ att "class" "slide" ++ att "id" ("slide-" ++ decn n) ++ att "data-slide" (decn n)) ++ ">"
     ++ (nl ++ (("<" ++ ("div" ++ att "class" "slide-number") ++ ">" ++ decn n ++ "</" ++ "div" ++ ">") ++ nl) ++ (("<" ++ "h2" ++ ">" ++ s_title s ++ "</" ++ "h2" ++ ">") ++ nl)
         ++ ("<" ++ ("div" ++ att "class" "content") ++ ">" ++ (nl ++ su ++ sb ++ sp ++ sc ++ sn) ++ "</" ++ "div" ++ ">") ++ nl)
     ++ "</" ++ "div" ++ ">") ++ nl)).
  { subst su sb sp sc sn. clear. generalize (sconcat (map (html_image o) (s_images s))) (sconcat (map (html_code o) (s_code s))). intros a b. 
    unfold att, dq, nl; rewrite !sapp_assoc; cbn [append s1]; rewrite ?sapp_assoc. cbn [append]. destruct (s_content s); reflexivity. }
  destruct (digits_tag n) as (D1 & D2 & D3).
  apply piece_line, piece_el; [|reflexivity|].
  { apply tag_split; [reflexivity| |reflexivity]. unfold att. rewrite !sforall_app, D1. reflexivity. }
  apply piece_nl_first. apply piece_app; [|apply piece_app].
  - rewrite <- (text_some (decn n)) by assumption. apply piece_line, piece_leaf; [reflexivity|reflexivity|]. now apply rtext_plain.
  - apply piece_line, piece_simple; [reflexivity|reflexivity|]. now apply rtext_plain, html_plain_shown.
  - apply piece_line, piece_el; [reflexivity|reflexivity|]. apply piece_nl_first. repeat (apply piece_app; [assumption|]). assumption.
Qed.
Lemma each_piece {A} (P : A -> Prop) (f : nat -> A -> string) (g : nat * A -> list token) l : (forall k x, P x -> piece (f k x) (g (k + 1, x))) -> Forall P l ->
  forall k, piece (each_push f k l) (flat_map g (combine (seq (k + 1) (length l)) l)).
Proof.
  intros H F. induction F as [|x l Px F IH]; intros k; [apply piece_nil|]. cbn [each_push length seq combine flat_map]. apply piece_app; [now apply H|]. apply (IH (S k)).
Qed.
Lemma piece_nav : piece html_nav want_nav.
Proof.
  eapply (eq_piece _ (("<" ++ ("div" ++ att "class" "navigation-controls") ++ ">" ++ (nl ++ (("<" ++ ("button" ++ att "onclick" "previousSlide()" ++ att "id" "prevBtn") ++ ">" ++ "Previous" ++ "</" ++ "button" ++ ">") ++ nl)
    ++ (("<" ++ ("button" ++ att "onclick" "nextSlide()" ++ att "id" "nextBtn") ++ ">" ++ "Next" ++ "</" ++ "button" ++ ">") ++ nl) ++ ("<" ++ ("span" ++ att "id" "slideCounter") ++ ">" ++ "" ++ "</" ++ "span" ++ ">") ++ nl) ++ "</" ++ "div" ++ ">") ++ nl)); [reflexivity|].
  apply piece_line, piece_el; [reflexivity|reflexivity|]. apply piece_nl_first. apply piece_app; [|apply piece_app].
  - apply piece_line, (piece_leaf "button" _ "Previous" "Previous"); [reflexivity|reflexivity|]. now apply rtext_plain.
  - apply piece_line, (piece_leaf "button" _ "Next" "Next"); [reflexivity|reflexivity|]. now apply rtext_plain.
  - apply piece_line, piece_el; [reflexivity|reflexivity|apply piece_nil].
Qed.
Lemma css_ok o : raw_ok (nl ++ html_style_css ++ (if ho_nav o then html_navigation_css else "") ++ (if ho_notes o then html_notes_css else "")) = true
  /\ blank (nl ++ html_style_css ++ (if ho_nav o then html_navigation_css else "") ++ (if ho_notes o then html_notes_css else "")) = false.
Proof. destruct (ho_nav o), (ho_notes o); vm_compute; split; reflexivity. Qed.
Lemma js_ok : raw_ok (nl ++ html_navigation_js) = true /\ blank (nl ++ html_navigation_js) = false.
Proof. vm_compute; split; reflexivity. Qed.
Lemma html_doc o p : html_dir_ok o = true -> html_plain (p_title p) = true -> forallb (html_slide_ok o) (p_slides p) = true ->
  html_read (export_to_html o p) = Some (want_html o (p_title p) (p_slides p)).
Proof.
  intros D T S. apply html_plain_shown in T. apply piece_read. unfold export_to_html, html_head, want_html. destruct p as [title slides st]. cbn [p_title p_slides] in *.
  assert (P : piece (each_push (fun i s => html_slide o (i + 1) s) 0 slides) (flat_map (want_page o) (numbered_from1 slides))).
  { apply (each_piece (fun s => html_slide_ok o s = true)); [intros; now apply piece_slide|]. apply Forall_forall. now apply forallb_forall. }
  assert (N : piece (if ho_nav o then html_nav else "") (if ho_nav o then want_nav else [])) by (destruct (ho_nav o); [apply piece_nav|apply piece_nil]).
  destruct (css_ok o) as [C1 C2]. destruct js_ok as [J1 J2].
  assert (J : piece (if ho_nav o then ("<" ++ "script" ++ ">" ++ (nl ++ html_navigation_js) ++ "</" ++ "script" ++ ">") ++ nl else "") (if ho_nav o then el "script" [Text (nl ++ html_navigation_js)] else [])).
  { destruct (ho_nav o); [|apply piece_nil]. apply piece_line, piece_raw; auto. }
  eapply (eq_piece _ ((("<" ++ "!DOCTYPE html" ++ ">") ++ nl) ++ ("<" ++ "html" ++ ">" ++ (nl ++ (("<" ++ "head" ++ ">" ++ (nl ++ ((("<" ++ ("meta" ++ att "charset" "UTF-8") ++ ">") ++ nl)
      ++ (("<" ++ ("meta" ++ att "name" "viewport" ++ att "content" "width=device-width, initial-scale=1.0") ++ ">") ++ nl)) ++ (("<" ++ "title" ++ ">" ++ title ++ "</" ++ "title" ++ ">") ++ nl)
      ++ (("<" ++ "style" ++ ">" ++ (nl ++ html_style_css ++ (if ho_nav o then html_navigation_css else "") ++ (if ho_notes o then html_notes_css else "")) ++ "</" ++ "style" ++ ">") ++ nl)
      ++ (if ho_nav o then ("<" ++ "script" ++ ">" ++ (nl ++ html_navigation_js) ++ "</" ++ "script" ++ ">") ++ nl else "")) ++ "</" ++ "head" ++ ">") ++ nl)
      ++ (("<" ++ "body" ++ ">" ++ (nl ++ (("<" ++ ("div" ++ att "class" "slide title-slide" ++ att "data-slide" "0") ++ ">" ++ (nl ++ (("<" ++ "h1" ++ ">" ++ title ++ "</" ++ "h1" ++ ">") ++ nl)) ++ "</" ++ "div" ++ ">") ++ nl)
           ++ each_push (fun i s => html_slide o (i + 1) s) 0 slides ++ (if ho_nav o then html_nav else "")) ++ "</" ++ "body" ++ ">") ++ nl)) ++ "</" ++ "html" ++ ">"))).
  { clear. generalize (each_push (fun i s => html_slide o (i + 1) s) 0 slides) (if ho_nav o then html_nav else "") (if ho_notes o then html_notes_css else "") html_style_css html_navigation_css html_navigation_js.
    intros a b c d e f. unfold att, dq, nl; rewrite !sapp_assoc; cbn [append s1]; rewrite ?sapp_assoc; cbn [append]. destruct (ho_nav o); cbn [append]; rewrite ?sapp_assoc; reflexivity. }
  change (Tag "!DOCTYPE html" :: ?l) with (app [Tag "!DOCTYPE html"] l). apply piece_app; [apply piece_line, piece_tag; reflexivity|].
  apply piece_box; [reflexivity|reflexivity|]. apply piece_nl_first. apply piece_app.
  - apply piece_line, piece_box; [reflexivity|reflexivity|]. apply piece_nl_first. apply piece_app; [|apply piece_app; [|apply piece_app; [|assumption]]].
    + change [?a; ?b] with (app [a] [b]). apply piece_app; apply piece_line, piece_tag; reflexivity.
    + apply piece_line, piece_simple; [reflexivity|reflexivity|]. now apply rtext_plain.
    + apply piece_line, piece_raw; auto.
  - apply piece_line, piece_box; [reflexivity|reflexivity|]. apply piece_nl_first. apply piece_app; [|apply piece_app; assumption].
    apply piece_line, piece_el; [reflexivity|reflexivity|]. apply piece_nl_first, piece_line, piece_simple; [reflexivity|reflexivity|]. now apply rtext_plain.
Qed.
