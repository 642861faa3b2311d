(** What follows from the parser's result on documents, and what holds for every
    stream of events. *)
From Coq Require Import String Ascii List Bool Arith NArith ZArith Lia.
From Verif Require Import Str Num ColorModel TableModel ConnectorModel ShapeModel SlideModel ValidSpec ValidProofs MdParseModel MdParseSpec MdParseProofs.
Import ListNotations.
Open Scope nat_scope.
Open Scope string_scope.

Section P.
Context (trim : string -> string) (load_image : string -> option image) (diagram : string -> list shape * list connector * string) (fit : string -> N).
Notation handle_all := (handle_all trim load_image diagram fit).
Notation handle_event := (handle_event trim load_image diagram fit).
Notation elements := (elements trim).
Notation slide_with := (slide_with trim load_image diagram fit).
Notation untitled := (untitled trim load_image diagram fit).
Notation slides_from := (slides_from trim load_image diagram fit).
Notation deck := (deck trim load_image diagram fit).
Notation parse := (parse trim load_image diagram fit).

Ltac st s := destruct s as [sls c tx il its it rs rw ce ic co la b i k iq q pe].
(** ** Titles *)
Lemma from_titles d : forall prev, map s_title (slides_from (Some prev) (snd (split_doc trim d))) = titles_after trim prev d.
Proof.
  induction d as [|b d IH]; intros prev; [reflexivity|]. cbn [split_doc titles_after]. destruct (split_doc trim d) as [els ps]. cbn [snd] in IH.
  destruct b as [[|[|l]] x|x|loose xs|head rows|info ls|x|]; cbn [snd]; try apply IH; cbn [MdParseSpec.slides_from map app s_title MdParseSpec.slide_with]; f_equal; apply IH.
Qed.
Lemma begins_with x d : deck (Heading 1 x :: d) = (slide_with (reads trim x) (fst (split_doc trim d)) :: slides_from (Some (reads trim x)) (snd (split_doc trim d)))%list.
Proof. unfold MdParseSpec.deck. cbn [split_doc]. destruct (split_doc trim d) as [els ps]. reflexivity. Qed.
Lemma deck_titles x d : map s_title (deck (Heading 1 x :: d)) = (reads trim x :: titles_after trim (reads trim x) d)%list.
Proof. rewrite begins_with. cbn [map]. f_equal. apply from_titles. Qed.
Lemma no_rules d : ~ In HorizontalRule d -> forall prev, titles_after trim prev d = titles_of trim d.
Proof.
  induction d as [|b d IH]; intros NR prev; [reflexivity|]. cbn [titles_after titles_of flat_map]. assert (N : ~ In HorizontalRule d) by (intros I; apply NR; now right).
  destruct b as [[|[|l]] x|x|loose xs|head rows|info ls|x|]; cbn [app]; try (now apply IH); [f_equal; now apply IH|]. exfalso. apply NR. now left.
Qed.
(** ** Lines *)
Lemma lines_elements b : (match b with Heading 1 _ => False | _ => True end) -> lines_in (elements b) = lines_of trim [b].
Proof.
  assert (P : forall x, lines_in (pics x) = []). { intros x. unfold pics. induction (pictures x) as [|[u t] l IH]; [reflexivity|exact IH]. }
  assert (A : forall a b, lines_in (a ++ b) = (lines_in a ++ lines_in b)%list) by (intros; apply flat_map_app).
  assert (PL : forall xs, lines_in (flat_map pics xs) = []). { induction xs as [|x xs IH]; [reflexivity|]. cbn [flat_map]. now rewrite A, P, IH. }
  assert (LL : forall xs, lines_in (flat_map (line_of trim) xs) = filter (fun s => negb (String.eqb s "")) (map (reads trim) xs)).
  { induction xs as [|x xs IH]; [reflexivity|]. cbn [flat_map map filter]. rewrite A, IH. unfold line_of. now destruct (String.eqb (reads trim x) ""). }
  intros H. unfold lines_of. cbn [flat_map]. rewrite app_nil_r. destruct b as [l x|x|loose xs|head rows|info ls|x|]; cbn [MdParseSpec.elements].
  - destruct (Nat.eqb_spec l 1) as [->|]; [contradiction|]. now rewrite A, P.
  - rewrite A, P. unfold line_of. now destruct (String.eqb (reads trim x) "").
  - now rewrite A, PL, LL.
  - rewrite A. assert (Q : forall rs, lines_in (flat_map (flat_map pics) rs) = []) by (induction rs as [|r rs IH]; [reflexivity|cbn [flat_map]; now rewrite A, PL, IH]). rewrite Q. now destruct (flat_map (row_of trim) (head :: rows)).
  - now destruct (String.eqb (sconcat ls) "").
  - rewrite A, P. now destruct (String.eqb _ "").
  - reflexivity.
Qed.
Lemma from_lines d : forall prev, (lines_in (fst (split_doc trim d)) ++ flat_map s_content (slides_from (Some prev) (snd (split_doc trim d))))%list = lines_of trim d.
Proof.
  induction d as [|b d IH]; intros prev; [reflexivity|]. assert (LO : lines_of trim (b :: d) = (lines_of trim [b] ++ lines_of trim d)%list) by (unfold lines_of; cbn [flat_map]; now rewrite app_nil_r). rewrite LO.
  assert (LE := lines_elements b).
  cbn [split_doc]. destruct (split_doc trim d) as [els ps]. cbn [fst snd] in IH.
  assert (A : forall a b, lines_in (a ++ b) = (lines_in a ++ lines_in b)%list) by (intros; apply flat_map_app).
  destruct b as [[|[|l]] x|x|loose xs|head rows|info ls|x|]; cbn [fst snd]; try (rewrite A, (LE I), <- app_assoc; f_equal; apply IH);
    cbn [MdParseSpec.slides_from flat_map app s_content MdParseSpec.slide_with]; apply IH.
Qed.
Lemma deck_lines x d : flat_map s_content (deck (Heading 1 x :: d)) = lines_of trim d.
Proof. rewrite begins_with. cbn [flat_map s_content MdParseSpec.slide_with]. apply from_lines. Qed.
(** ** Nothing to show *)
Lemma untitled_empty els : untitled els = [] <-> forall e, In e els -> opens diagram e = None.
Proof.
  induction els as [|e l IH]; [now split|]. cbn [MdParseSpec.untitled]. destruct (opens diagram e) as [t|] eqn:E.
  - split; [discriminate|]. intros H. rewrite (H e (or_introl eq_refl)) in E. discriminate.
  - rewrite IH. split; intros H e' I; [destruct I as [<-|I]; auto|apply H; now right].
Qed.
Lemma from_some prev ps : slides_from (Some prev) ps = [] -> ps = [].
Proof. destruct ps as [|[[t|] els] ps]; [reflexivity|discriminate|discriminate]. Qed.
Lemma deck_empty_gen d els0 : slides_from None ((None, els0 ++ fst (split_doc trim d)) :: snd (split_doc trim d))%list = [] <->
  (forall e, In e els0 -> opens diagram e = None) /\ forall b, In b d -> (forall x, b <> Heading 1 x) /\ forall e, In e (elements b) -> opens diagram e = None.
Proof.
  revert els0. induction d as [|b d IH]; intros els0.
  - cbn [split_doc fst snd MdParseSpec.slides_from]. rewrite !app_nil_r. rewrite untitled_empty. split; [now intros H|now intros [H _]].
  - cbn [split_doc]. destruct (split_doc trim d) as [els ps] eqn:SD. cbn [fst snd] in IH.
    assert (STEP : (match b with Heading 1 _ | HorizontalRule => False | _ => True end) -> slides_from None ((None, els0 ++ (elements b ++ els)) :: ps)%list = [] <->
       (forall e, In e els0 -> opens diagram e = None) /\ forall b', In b' (b :: d) -> (forall x, b' <> Heading 1 x) /\ forall e, In e (elements b') -> opens diagram e = None).
    { intros NB. rewrite app_assoc. rewrite IH. split.
      - intros [H1 H2]. split; [intros e I; apply H1, in_or_app; now left|]. intros b' [<-|I]; [|now apply H2]. split; [intros x ->; exact NB|]. intros e I. apply H1, in_or_app. now right.
      - intros [H1 H2]. split; [|intros b' I; apply H2; now right]. intros e I. apply in_app_or in I as [I|I]; [now apply H1|]. apply (H2 b (or_introl eq_refl)), I. }
    destruct b as [[|[|l]] x|x|loose xs|head rows|info ls|x|]; try (apply (STEP I)); cbn [fst snd].
    + cbn [MdParseSpec.slides_from]. split; [|intros [_ H]; destruct (H _ (or_introl eq_refl)) as [H2 _]; now destruct (H2 x)].
      intros H. apply app_eq_nil in H as [_ H]. discriminate.
    + rewrite app_nil_r. change (slides_from None ((None, els0) :: (None, els) :: ps)) with (untitled els0 ++ slides_from (match untitled els0 with s :: _ => Some (s_title s) | [] => None end) ((None, els) :: ps))%list.
      specialize (IH []). cbn [app] in IH. split.
      * intros H. apply app_eq_nil in H as [U H]. rewrite U in H. apply IH in H as [_ H]. rewrite untitled_empty in U. split; [exact U|]. intros b [<-|I]; [|now apply H]. split; [discriminate|contradiction].
      * intros [H1 H2]. rewrite <- untitled_empty in H1. rewrite H1. cbn [app]. apply IH. split; [contradiction|]. intros b I. apply H2. now right.
Qed.
Lemma deck_empty d : deck d = [] <-> forall b, In b d -> (forall x, b <> Heading 1 x) /\ forall e, In e (elements b) -> opens diagram e = None.
Proof. unfold MdParseSpec.deck. assert (H := deck_empty_gen d []). destruct (split_doc trim d) as [els ps]. cbn [fst snd app] in H. rewrite H. split; [now intros [_ K]|intros K; split; [contradiction|exact K]]. Qed.

(** ** Every stream of events *)
Lemma flush_items_slides s : slides (flush_list_items s) = slides s.
Proof. unfold flush_list_items. destruct s as [? ? ? ? [|i its] ? ? ? ? ? ? ? ? ? ? ? ? ?]; reflexivity. Qed.
Lemma finalize_slides s : exists l, slides (finalize s) = (slides s ++ l)%list /\ length l <= 1.
Proof.
  unfold finalize. rewrite <- (flush_items_slides s). set (s1 := flush_list_items s). destruct (cur s1) as [sl|].
  - exists [sl]. split; [reflexivity|]. cbn. lia.
  - exists []. rewrite app_nil_r. split; [reflexivity|]. cbn. lia.
Qed.
Lemma event_slides s e s' : handle_event s e = Ret s' -> exists l, slides s' = (slides s ++ l)%list.
Proof.
  assert (K : forall s2, slides s2 = slides s -> exists l, slides s2 = (slides s ++ l)%list) by (intros s2 ->; exists []; now rewrite app_nil_r).
  assert (PT : forall t, slides (push_text t s) = slides s) by (intros t; unfold push_text; destruct s as [? ? ? ? ? [] ? ? ? [] ? ? ? ? ? [] ? ?]; reflexivity).
  destruct e; cbn [MdParseModel.handle_event]; intros H.
  - assert (E : s' = set_txt "" (if Nat.eqb level 1 then finalize s else s)) by congruence. subst. destruct (Nat.eqb level 1); [|apply K; now destruct s]. destruct (finalize_slides s) as (l & E & _). exists l. rewrite <- E. now destruct (finalize s).
  - destruct (Nat.eqb level 1); assert (E := f_equal (fun o => match o with Ret a => a | Panic => s end) H); cbn in E; subst; apply K; now destruct s.
  - assert (E := f_equal (fun o => match o with Ret a => a | Panic => s end) H); cbn in E; subst; apply K; now destruct s.
  - assert (E := f_equal (fun o => match o with Ret a => a | Panic => s end) H); cbn -[flush_list_items] in E; subst; apply K. rewrite flush_items_slides. now destruct s.
  - assert (E := f_equal (fun o => match o with Ret a => a | Panic => s end) H); cbn in E; subst; apply K; now destruct s.
  - assert (E := f_equal (fun o => match o with Ret a => a | Panic => s end) H); cbn -[String.eqb] in E; subst; apply K. destruct (String.eqb _ ""); now destruct s.
  - assert (E := f_equal (fun o => match o with Ret a => a | Panic => s end) H); cbn in E; subst; apply K; now destruct s.
  - unfold flush_table in H. destruct s as [? ? ? ? ? ? [|r rs] ? ? ? ? ? ? ? ? ? ? ?]; cbn [trows set_table] in H; [|destruct (table_from_string_rows (r :: rs) true); [|discriminate]];
      assert (E := f_equal (fun o => match o with Ret a => a | Panic => state0 end) H); cbn in E; subst; apply K; reflexivity.
  - assert (E := f_equal (fun o => match o with Ret a => a | Panic => s end) H); cbn in E; subst; apply K; now destruct s.
  - assert (E := f_equal (fun o => match o with Ret a => a | Panic => s end) H); cbn in E; subst; apply K. unfold push_row. now destruct s as [? ? ? ? ? ? ? [|] ? ? ? ? ? ? ? ? ? ?].
  - assert (E := f_equal (fun o => match o with Ret a => a | Panic => s end) H); cbn in E; subst; apply K; now destruct s.
  - assert (E := f_equal (fun o => match o with Ret a => a | Panic => s end) H); cbn in E; subst; apply K. unfold push_row. now destruct s as [? ? ? ? ? ? ? [|] ? ? ? ? ? ? ? ? ? ?].
  - assert (E := f_equal (fun o => match o with Ret a => a | Panic => s end) H); cbn in E; subst; apply K; now destruct s.
  - assert (E := f_equal (fun o => match o with Ret a => a | Panic => s end) H); cbn in E; subst; apply K; now destruct s.
  - assert (E := f_equal (fun o => match o with Ret a => a | Panic => s end) H); cbn in E; subst; apply K; now destruct s.
  - assert (E := f_equal (fun o => match o with Ret a => a | Panic => s end) H); cbn -[flush_code_block] in E; subst; apply K. unfold flush_code_block. st s; cbn [code set_code lang in_code]. destruct (String.eqb _ ""); [reflexivity|].
    destruct (String.eqb _ "mermaid"); [|reflexivity]. now destruct (diagram _) as [[? ?] ?].
  - assert (E := f_equal (fun o => match o with Ret a => a | Panic => s end) H); cbn in E; subst; apply K; now destruct s.
  - assert (E := f_equal (fun o => match o with Ret a => a | Panic => s end) H); cbn -[flush_blockquote] in E; subst; apply K. unfold flush_blockquote. st s; cbn [quote set_quote]. now destruct (String.eqb _ "").
  - assert (E := f_equal (fun o => match o with Ret a => a | Panic => s end) H); cbn in E; subst; apply K; now destruct s.
  - assert (E := f_equal (fun o => match o with Ret a => a | Panic => s end) H); cbn in E; subst; apply K; now destruct s.
  - assert (E := f_equal (fun o => match o with Ret a => a | Panic => s end) H); cbn in E; subst; apply K; now destruct s.
  - assert (E := f_equal (fun o => match o with Ret a => a | Panic => s end) H); cbn in E; subst; apply K; now destruct s.
  - assert (E := f_equal (fun o => match o with Ret a => a | Panic => s end) H); cbn in E; subst; apply K; now destruct s.
  - assert (E := f_equal (fun o => match o with Ret a => a | Panic => s end) H); cbn in E; subst; apply K; now destruct s.
  - assert (E := f_equal (fun o => match o with Ret a => a | Panic => s end) H); cbn -[push_text] in E; subst; apply K, PT.
  - unfold inline_html in H. destruct (contains "<mark>" s0 || contains "<ins>" s0); [|destruct (contains "<sub>" s0); [|destruct (contains "<sup>" s0)]]; try (destruct (between s0) as [[t|]|]; [| |discriminate]);
      assert (E := f_equal (fun o => match o with Ret a => a | Panic => s end) H); cbn -[push_text append] in E; subst; apply K; auto.
  - assert (E := f_equal (fun o => match o with Ret a => a | Panic => s end) H); cbn in E; subst; apply K; now destruct s.
  - destruct (pending s) as [[u a]|]; assert (E := f_equal (fun o => match o with Ret a => a | Panic => s end) H); cbn -[add_image] in E; subst; apply K; [|reflexivity]. unfold add_image. destruct (load_image u); now destruct s.
  - destruct (finalize_slides s) as (l & E & _). destruct (rev (slides (finalize s))) as [|last r]; assert (E2 := f_equal (fun o => match o with Ret a => a | Panic => s end) H); cbn -[finalize append] in E2; subst; exists l; exact E.
  - assert (E := f_equal (fun o => match o with Ret a => a | Panic => s end) H); cbn -[push_text] in E; subst; apply K, PT.
  - assert (E := f_equal (fun o => match o with Ret a => a | Panic => s end) H); cbn -[push_text] in E; subst; apply K, PT.
  - assert (E := f_equal (fun o => match o with Ret a => a | Panic => s end) H); cbn in E; subst; apply K. destruct (outside s); now destruct s.
  - destruct (outside s); assert (E := f_equal (fun o => match o with Ret a => a | Panic => s end) H); cbn -[String.eqb] in E; subst; apply K; [|reflexivity]. destruct (String.eqb _ ""); now destruct s.
  - assert (E := f_equal (fun o => match o with Ret a => a | Panic => s end) H); cbn in E; subst; now apply K.
Qed.
Lemma stream_slides l : forall s s', handle_all s l = Ret s' -> exists more, slides s' = (slides s ++ more)%list.
Proof.
  induction l as [|e l IH]; intros s s' H; cbn [MdParseModel.handle_all] in H.
  - assert (E := f_equal (fun o => match o with Ret a => a | Panic => s end) H); cbn in E; subst. exists []. now rewrite app_nil_r.
  - destruct (handle_event s e) as [s1|] eqn:E; [|discriminate]. destruct (event_slides _ _ _ E) as (a & A). destruct (IH _ _ H) as (b & B). exists (a ++ b)%list. now rewrite B, A, app_assoc.
Qed.
Theorem parse_prefix l1 l2 a b out : parse l1 = Ret (Some (a ++ [b])%list) -> parse (l1 ++ l2) = Ret (Some out) -> exists more, out = (a ++ more)%list.
Proof.
  unfold MdParseModel.parse. rewrite handle_app. destruct (handle_all state0 l1) as [s|] eqn:E1; [|discriminate]. intros H1. destruct (handle_all s l2) as [s2|] eqn:E2; [|discriminate]. intros H2.
  destruct (stream_slides _ _ _ E2) as (m & M). destruct (finalize_slides s) as (x & X & LX). destruct (finalize_slides s2) as (y & Y & _).
  assert (H1' : slides (finalize s) = (a ++ [b])%list) by (destruct (slides (finalize s)); congruence).
  assert (H2' : slides (finalize s2) = out) by (destruct (slides (finalize s2)); congruence). subst out. rewrite Y, M.
  rewrite X in H1'. destruct x as [|x0 [|x1 x]]; [|apply app_inj_tail in H1' as [H1' _]; rewrite H1'; rewrite <- !app_assoc; eauto|cbn in LX; lia].
  rewrite app_nil_r in H1'. rewrite H1'. rewrite <- !app_assoc. eauto.
Qed.
(** No panic. *)
Lemma orderly_between h : orderly_html h -> between h <> Panic.
Proof.
  intros O. unfold between. destruct (split_once ">" h) as [[a ra]|] eqn:A; [|discriminate]. destruct (split_once "</" h) as [[b rb]|] eqn:B; [|discriminate].
  assert (A2 := split_char_first ">" h a ra A). assert (A1 := split_once_some _ _ _ _ A). assert (B1 := split_once_some _ _ _ _ B). destruct (O b rb B1) as (x & y & ->).
  assert (L : String.length a <= String.length x).
  { destruct (le_lt_dec (String.length a) (String.length x)) as [|G]; [assumption|exfalso]. 
    assert (E : a ++ (">" ++ ra) = x ++ (">" ++ (y ++ "</" ++ rb))). { rewrite <- A1, B1. now rewrite !sapp_assoc. }
    destruct (prefix_cases x a (">" ++ ra) (">" ++ (y ++ "</" ++ rb)) E) as [(w & W)|(w & W & _)]; subst a || subst x.
    - destruct w as [|c w]; [rewrite sapp_nil_r in G; lia|]. rewrite !sapp_assoc in E. apply sapp_inv_head in E. assert (c = ">"%char) by (cbn in E; congruence). subst c. rewrite sforall_app in A2. cbn in A2. rewrite andb_false_r in A2. discriminate.
    - rewrite app_len in G. lia. }
  rewrite !app_len. cbn [String.length]. destruct (Nat.leb_spec (S (String.length a)) (String.length x + (1 + String.length y))); [discriminate|lia].
Qed.
Definition bounded (n : nat) (s : state) : Prop := length (trow s) <= n /\ Forall (fun r => r <> [] /\ length r <= n) (trows s).
Lemma bounded_more n s : bounded n s -> bounded (S n) s.
Proof. intros [A B]. split; [lia|]. eapply Forall_impl; [|exact B]. intros r [? ?]. split; [assumption|lia]. Qed.
Lemma event_bounded n s e : (N.of_nat n <= u32_max)%N -> (match e with InlineHtml h => orderly_html h | _ => True end) -> bounded n s -> exists s', handle_event s e = Ret s' /\ bounded (S n) s'.
Proof.
  intros L O B. assert (B2 := bounded_more n s B).
  assert (SAME : forall s2, trow s2 = trow s -> trows s2 = trows s -> bounded (S n) s2) by (intros s2 E1 E2; unfold bounded; rewrite E1, E2; exact B2).
  assert (FL : forall s2, trow s2 = trow s -> trows s2 = trows s -> trow (flush_list_items s2) = trow s /\ trows (flush_list_items s2) = trows s) by (intros s2 E1 E2; unfold flush_list_items; destruct s2 as [? ? ? ? [|i its] ? ? ? ? ? ? ? ? ? ? ? ? ?]; cbn in *; auto).
  assert (FI : trow (finalize s) = trow s /\ trows (finalize s) = trows s) by (unfold finalize; destruct (FL s eq_refl eq_refl); destruct (cur (flush_list_items s)); auto).
  assert (PT : forall t, bounded (S n) (push_text t s)) by (intros t; apply SAME; unfold push_text; destruct s as [? ? ? ? ? [] ? ? ? [] ? ? ? ? ? [] ? ?]; reflexivity).
  assert (PR : bounded (S n) (push_row s)).
  { unfold push_row. destruct B as [B3 B4]. destruct (trow s) as [|c r] eqn:E; [exact B2|]. destruct B2 as [_ B2]. split; cbn; [lia|]. apply Forall_app. split; [exact B2|]. repeat constructor; [discriminate|]. cbn in *. lia. }
  destruct e; cbn [MdParseModel.handle_event]; try (eexists; split; [reflexivity|]); auto; try (destruct s; exact B2).
  - destruct FI. destruct (Nat.eqb level 1); apply SAME; destruct (finalize s), s; cbn in *; auto.
  - destruct (Nat.eqb level 1); eexists; (split; [reflexivity|]); destruct s; exact B2.
  - destruct (FL (set_list false (items s) s)) as [F1 F2]; [now destruct s|now destruct s|]. now apply SAME.
  - apply SAME; destruct (String.eqb _ ""); now destruct s.
  - destruct B2 as [_ B2]. destruct s; split; cbn; [|constructor]. destruct B as [B _]. cbn in *. lia.
  - unfold flush_table. destruct B as [B3 B4]. destruct s as [? ? ? ? ? ? [|r rs] ? ? ? ? ? ? ? ? ? ? ?]; cbn [trows set_table]; [eexists; split; [reflexivity|]; exact B2|].
    assert (T : table_from_string_rows (r :: rs) true <> Panic). { apply table_made; [discriminate|]. intros x X. cbn in B4. rewrite Forall_forall in B4. destruct (B4 x X). split; [assumption|lia]. }
    destruct (table_from_string_rows (r :: rs) true); [|congruence]. eexists. split; [reflexivity|]. split; cbn in *; [lia|constructor].
  - destruct s; destruct B2 as [_ B2]; split; cbn in *; [lia|exact B2].
  - destruct s; destruct B2 as [_ B2]; split; cbn in *; [lia|exact B2].
  - destruct s; destruct B2 as [_ B2], B as [B _]; split; cbn in *; [|exact B2]. rewrite app_length. cbn. lia.
  - apply SAME; unfold flush_code_block; st s; cbn [code set_code lang in_code]; destruct (String.eqb _ ""); try reflexivity; destruct (String.eqb _ "mermaid"); try reflexivity; now destruct (diagram _) as [[? ?] ?].
  - apply SAME; unfold flush_blockquote; st s; cbn [quote set_quote]; now destruct (String.eqb _ "").
  - assert (BT := orderly_between s0 O). unfold inline_html. destruct (contains "<mark>" s0 || contains "<ins>" s0); [|destruct (contains "<sub>" s0); [|destruct (contains "<sup>" s0)]]; try (destruct (between s0) as [[t|]|]; [| |congruence]); eexists; (split; [reflexivity|]); auto.
  - destruct (pending s) as [[u a]|]; eexists; (split; [reflexivity|]); [|exact B2]. apply SAME; unfold add_image; destruct (load_image u); now destruct s.
  - destruct FI as [F1 F2]. destruct (rev (slides (finalize s))); eexists; (split; [reflexivity|]); apply SAME; assumption.
  - apply SAME; destruct (outside s); now destruct s.
  - destruct (outside s); eexists; (split; [reflexivity|]); [|exact B2]. apply SAME; destruct (String.eqb _ ""); now destruct s.
Qed.
Lemma stream_runs l : forall n s, (N.of_nat (n + length l) <= u32_max)%N -> (forall h, In (InlineHtml h) l -> orderly_html h) -> bounded n s -> exists s', handle_all s l = Ret s'.
Proof.
  induction l as [|e l IH]; intros n s L O B; [now exists s|]. cbn [MdParseModel.handle_all]. cbn [length] in L.
  destruct (event_bounded n s e) as (s1 & -> & B1); [lia|destruct e; auto; apply O; now left|exact B|]. apply (IH (S n)); [now replace (S n + length l) with (n + S (length l)) by lia|intros h I; apply O; now right|exact B1].
Qed.
Theorem parse_no_panic l : (N.of_nat (length l) <= u32_max)%N -> (forall h, In (InlineHtml h) l -> orderly_html h) -> parse l <> Panic.
Proof.
  intros L O. unfold MdParseModel.parse. destruct (stream_runs l 0 state0 L O) as (s & ->); [split; [cbn; lia|constructor]|]. discriminate.
Qed.
End P.
