(** Reading written HTML gives its tags and texts back. *)
From Coq Require Import String Ascii List Bool Arith NArith ZArith Lia.
From Verif Require Import Str Num ColorModel ValidSpec ValidProofs MdParseModel HtmlInModel HtmlInSpec HtmlInProofs.
Import ListNotations.
Open Scope nat_scope.
Open Scope string_scope.

(** ** Characters *)
Lemma chars_nonempty s : Forall (fun c => c <> "") (chars s).
Proof.
  induction s as [|c s IH]; [constructor|]. cbn [chars]. destruct (chars s) as [|[|d x] l]; [repeat constructor; discriminate|inversion_clear IH; congruence|].
  inversion_clear IH. destruct (continues d); repeat constructor; try discriminate; assumption.
Qed.
Lemma chars_concat s : sconcat (chars s) = s.
Proof.
  induction s as [|c s IH]; [reflexivity|]. cbn [chars]. destruct (chars s) as [|[|d x] l].
  - cbn in IH. now subst s.
  - cbn. now rewrite <- IH.
  - destruct (continues d); cbn in *; now rewrite <- IH.
Qed.
(** A text that begins with a whole character has it as its first one. *)
Lemma chars_head c s : continues c = false -> exists x l, chars (String c s) = String c x :: l.
Proof. intros _. cbn [chars]. destruct (chars s) as [|[|d x] l]; eauto. destruct (continues d); eauto. Qed.
Lemma chars_app a b : whole b = true -> chars (a ++ b) = (chars a ++ chars b)%list.
Proof.
  intros W. induction a as [|c a IH]; [reflexivity|]. cbn [append chars]. rewrite IH. destruct (chars a) as [|[|d x] l] eqn:E.
  - cbn [app]. destruct b as [|e b]; [reflexivity|]. destruct (chars_head e b) as (x & l & ->); [now apply negb_true_iff|]. cbn [whole] in W. apply negb_true_iff in W. now rewrite W.
  - exfalso. assert (N := chars_nonempty a). rewrite E in N. inversion_clear N. congruence.
  - cbn [app]. now destruct (continues d).
Qed.
Lemma chars_forall (p : ascii -> bool) s : sforall p s = true -> Forall (fun c => sforall p c = true) (chars s).
Proof.
  induction s as [|c s IH]; intros F; [constructor|]. cbn [sforall] in F. apply andb_prop in F as [A B]. specialize (IH B). cbn [chars]. destruct (chars s) as [|[|d x] l].
  - repeat constructor. cbn. now rewrite A.
  - constructor; [cbn; now rewrite A|exact IH].
  - inversion_clear IH. destruct (continues d); repeat constructor; try assumption; cbn; [|now rewrite A]. rewrite A. exact H.
Qed.
(** No character that is a given byte. *)
Lemma chars_avoid k s : sforall (fun c => negb (Ascii.eqb c k)) s = true -> Forall (fun c => is (s1 k) c = false) (chars s).
Proof.
  intros F. apply chars_forall in F. eapply Forall_impl; [|exact F]. intros c C. unfold is. apply String.eqb_neq. intros ->. cbn in C. rewrite Ascii.eqb_refl in C. discriminate.
Qed.
Lemma s1_chars c : chars (s1 c) = [s1 c]. Proof. reflexivity. Qed.
Lemma chars_cons c s : whole s = true -> chars (String c s) = s1 c :: chars s.
Proof. intros W. change (String c s) with (s1 c ++ s). now rewrite chars_app. Qed.
(** Texts of ASCII. *)
Lemma ascii_whole c s : ascii_char c = true -> whole (String c s) = true.
Proof. unfold ascii_char, whole, continues. intros A. apply N.ltb_lt in A. apply negb_true_iff. destruct (N.leb_spec 128 (N_of_ascii c)); [lia|reflexivity]. Qed.
Lemma name_ascii c : name_letter c = true -> ascii_char c = true.
Proof. unfold name_letter, ascii_char. intros H. apply N.ltb_lt. apply orb_prop in H as [H|H]; apply andb_prop in H as [_ H]; apply N.leb_le in H; lia. Qed.
Lemma name_whole n s : sforall name_letter n = true -> whole s = true -> whole (n ++ s) = true.
Proof. destruct n as [|c n]; [easy|]. intros F _. cbn [sforall] in F. apply andb_prop in F as [A _]. apply ascii_whole. now apply name_ascii. Qed.
Lemma name_chars n : sforall name_letter n = true -> Forall (fun c => exists k, c = s1 k /\ name_letter k = true) (chars n).
Proof.
  induction n as [|c n IH]; intros F; [constructor|]. cbn [sforall] in F. apply andb_prop in F as [A B]. rewrite chars_cons; [constructor; [now exists c|now apply IH]|].
  rewrite <- (sapp_nil_r n). now apply name_whole.
Qed.

(** ** Entities *)
Lemma decode_stop f s : String.length s <= f -> forall g, String.length s <= g -> decode f s = decode g s.
Proof.
  revert f. induction s as [s H] using (well_founded_induction (Wf_nat.well_founded_ltof _ String.length)). unfold Wf_nat.ltof in *. intros f L g M. destruct s as [|c r]; [destruct f, g; reflexivity|].
  destruct f as [|f]; [cbn in L; lia|]. destruct g as [|g]; [cbn in M; lia|]. cbn [decode]. cbn [String.length] in L, M, H.
  assert (R : decode f r = decode g r) by (apply H; lia). destruct (Ascii.eqb c "&"); [|now rewrite R]. destruct (split_once ";" r) as [[e rest]|] eqn:S; [|now rewrite R]. destruct (entity e); [|now rewrite R].
  f_equal. apply split_once_some in S. assert (String.length rest <= String.length r) by (rewrite S, !app_len; lia). apply H; lia.
Qed.
Lemma decode_entity e u r : sforall (fun c => negb (Ascii.eqb c ";")) e = true -> entity e = Some u -> decode_entities (String "&" (e ++ ";" ++ r)) = u ++ decode_entities r.
Proof.
  intros F E. unfold decode_entities. cbn [String.length decode]. change (Ascii.eqb "&" "&") with true. cbv iota. rewrite split_once_first; [|reflexivity|].
  - rewrite E. f_equal. apply decode_stop; [rewrite !app_len; lia|lia].
  - intros a b X. rewrite X, !sforall_app in F. cbn in F. now destruct (sforall _ a).
Qed.
Lemma decode_char c r : Ascii.eqb c "&" = false -> decode_entities (String c r) = String c (decode_entities r).
Proof. intros E. unfold decode_entities. cbn [String.length decode]. now rewrite E. Qed.
Lemma decode_text s : decode_entities (html_text s) = s.
Proof.
  induction s as [|c s IH]; [reflexivity|]. unfold html_text in *. cbn [smap]. unfold html_char at 1.
  destruct (Ascii.eqb_spec c "&") as [->|N1]; [|destruct (Ascii.eqb_spec c "<") as [->|N2]; [|destruct (Ascii.eqb_spec c ">") as [->|N3]; [|destruct (Ascii.eqb_spec c """") as [->|N4]]]].
  - change ("&amp;" ++ smap html_char s) with (String "&" ("amp" ++ ";" ++ smap html_char s)). rewrite (decode_entity _ "&") by reflexivity. now rewrite IH.
  - change ("&lt;" ++ smap html_char s) with (String "&" ("lt" ++ ";" ++ smap html_char s)). rewrite (decode_entity _ "<") by reflexivity. now rewrite IH.
  - change ("&gt;" ++ smap html_char s) with (String "&" ("gt" ++ ";" ++ smap html_char s)). rewrite (decode_entity _ ">") by reflexivity. now rewrite IH.
  - change ("&quot;" ++ smap html_char s) with (String "&" ("quot" ++ ";" ++ smap html_char s)). rewrite (decode_entity _ """") by reflexivity. now rewrite IH.
  - change (s1 c ++ smap html_char s) with (String c (smap html_char s)). rewrite decode_char by now apply Ascii.eqb_neq. now rewrite IH.
Qed.
Lemma text_avoids k s : In k ["<"; ">"; """"]%char -> sforall (fun c => negb (Ascii.eqb c k)) (html_text s) = true.
Proof.
  intros I. unfold html_text. induction s as [|c s IH]; [reflexivity|]. cbn [smap]. rewrite sforall_app, IH, andb_true_r. unfold html_char.
  destruct (Ascii.eqb_spec c "&") as [->|N1]; [|destruct (Ascii.eqb_spec c "<") as [->|N2]; [|destruct (Ascii.eqb_spec c ">") as [->|N3]; [|destruct (Ascii.eqb_spec c """") as [->|N4]]]]; try (now destruct I as [<-|[<-|[<-|[]]]]).
  cbn. rewrite andb_true_r. apply negb_true_iff, Ascii.eqb_neq. destruct I as [<-|[<-|[<-|[]]]]; congruence.
Qed.
Lemma text_whole s : whole s = true -> whole (html_text s) = true.
Proof.
  destruct s as [|c s]; [easy|]. intros W. unfold html_text. cbn [smap]. unfold html_char. destruct (Ascii.eqb c "&"); [reflexivity|]. destruct (Ascii.eqb c "<"); [reflexivity|]. destruct (Ascii.eqb c ">"); [reflexivity|]. destruct (Ascii.eqb c """"); [reflexivity|exact W].
Qed.

(** ** Runs *)
Lemma span_all p a r : Forall (fun c => p c = true) a -> (match r with c :: _ => p c = false | [] => True end) -> span p (a ++ r) = (a, r).
Proof. induction 1 as [|c a C F IH]; intros S; cbn [app]; [destruct r as [|x r]; [reflexivity|cbn [span]; now rewrite S]|]. cbn [span]. rewrite C. now rewrite IH. Qed.
Lemma span_none p r : (match r with c :: _ => p c = false | [] => True end) -> span p r = ([], r).
Proof. intros S. now apply (span_all p [] r). Qed.

Section T.
Context (trim lower : string -> string) (alnum : string -> bool).
Hypothesis alnum_ascii : forall c, ascii_char c = true -> alnum (s1 c) = letter_or_digit c.
Hypothesis lower_name : forall n, sforall name_letter n = true -> lower n = n.
Notation tokens := (tokens trim lower alnum).
Notation tokenize := (tokenize trim lower alnum).
Notation name_char := (name_char alnum).

Lemma letter_char k : name_letter k = true -> name_char (s1 k) = true.
Proof.
  intros H. unfold HtmlInModel.name_char. rewrite alnum_ascii by now apply name_ascii. replace (letter_or_digit k) with true; [reflexivity|]. symmetry. unfold name_letter in H. unfold letter_or_digit. apply orb_prop in H as [H|H]; rewrite H; now rewrite ?orb_true_r.
Qed.
Lemma letter_blank k : name_letter k = true -> blank (s1 k) = false.
Proof.
  intros H. unfold name_letter in H. destruct k as [[] [] [] [] [] [] [] []]; vm_compute in H; try discriminate; reflexivity.
Qed.
Lemma name_span n c r : sforall name_letter n = true -> name_char c = false -> span name_char (chars n ++ c :: r) = (chars n, c :: r).
Proof. intros F S. apply span_all; [|exact S]. eapply Forall_impl; [|exact (name_chars n F)]. intros x (k & -> & K). now apply letter_char. Qed.
Lemma stop_char c : ascii_char c = true -> letter_or_digit c = false -> existsb (Ascii.eqb c) ["-"; ":"; "_"; "."]%char = false -> name_char (s1 c) = false.
Proof.
  intros A L E. unfold HtmlInModel.name_char. rewrite alnum_ascii, L by exact A. cbn [existsb] in E. repeat (apply orb_false_elim in E as [? E]). unfold is, s1. cbn [String.eqb].
  now rewrite H, H0, H1, H2.
Qed.
Lemma gt_stop : name_char ">" = false. Proof. now apply (stop_char ">"). Qed.
Lemma space_stop : name_char " " = false. Proof. now apply (stop_char " "). Qed.
(** ** Attributes *)
Lemma no_blank_name n c r : tag_name n -> span blank (chars n ++ c :: r) = ([], chars n ++ c :: r)%list.
Proof.
  intros [NE F]. apply span_none. assert (N := name_chars n F). destruct (chars n) as [|x l] eqn:E.
  - exfalso. apply NE. now rewrite <- (chars_concat n), E.
  - inversion_clear N. destruct H as (k & -> & K). now apply letter_blank.
Qed.
Lemma attr_chars a : tag_name (fst a) -> whole (snd a) = true -> forall r, whole r = true ->
  chars (write_attr a ++ r) = (" " :: chars (fst a) ++ "=" :: """" :: chars (html_text (snd a)) ++ """" :: chars r)%list.
Proof.
  intros [NE F] W r R. unfold write_attr. rewrite !sapp_assoc. change (" " ++ fst a ++ "=""" ++ html_text (snd a) ++ """" ++ r) with (String " " (fst a ++ String "=" (String """" (html_text (snd a) ++ String """" r)))).
  assert (W3 : whole (String """" r) = true) by reflexivity.
  assert (W2 : whole (html_text (snd a) ++ String """" r) = true). { assert (T := text_whole _ W). destruct (html_text (snd a)); [reflexivity|exact T]. }
  rewrite chars_cons by (now apply name_whole). rewrite chars_app by reflexivity. rewrite (chars_cons "=") by reflexivity. rewrite (chars_cons """" (_ ++ _)) by exact W2. rewrite chars_app by exact W3. rewrite (chars_cons """" r) by exact R. reflexivity.
Qed.
Lemma attrs_read attrs : Forall (fun a => tag_name (fst a) /\ whole (snd a) = true) attrs -> forall rest f, length attrs < f ->
  attributes lower f (chars (sconcat (map write_attr attrs) ++ ">") ++ rest) = Some (attrs, ">" :: rest).
Proof.
  induction 1 as [|a attrs [N W] F IH]; intros rest f L; (destruct f as [|f]; [cbn in L; lia|]).
  - reflexivity.
  - cbn [length] in L. change (sconcat (map write_attr (a :: attrs)) ++ ">") with ((write_attr a ++ sconcat (map write_attr attrs)) ++ ">"). rewrite sapp_assoc.
    assert (WR : whole (sconcat (map write_attr attrs) ++ ">") = true) by now destruct attrs.
    rewrite attr_chars by assumption. set (more := (chars (sconcat (map write_attr attrs) ++ ">") ++ rest)%list) in *.
    assert (E : ((" " :: chars (fst a) ++ "=" :: """" :: chars (html_text (snd a)) ++ """" :: chars (sconcat (map write_attr attrs) ++ ">")) ++ rest = " " :: chars (fst a) ++ "=" :: """" :: chars (html_text (snd a)) ++ """" :: more)%list).
    { unfold more. cbn [app]. f_equal. rewrite <- !app_assoc. cbn [app]. now rewrite <- app_assoc. }
    rewrite E. clear E. cbn [HtmlInModel.attributes]. change (is ">" " ") with false. cbv iota. change (span blank (" " :: ?l)) with (let '(x, y) := span blank l in (" " :: x, y)). rewrite (no_blank_name _ _ _ N). cbn [snd].
    destruct N as [NE NF]. assert (NC := name_chars _ NF). assert (CC := chars_concat (fst a)). destruct (chars (fst a)) as [|x l]; [cbn in CC; congruence|]. cbn [app].
    inversion NC as [|? ? (k & K1 & K2) NL]; subst x l0.
    assert (Y : forall k, name_letter k = true -> is ">" (s1 k) = false /\ is "/" (s1 k) = false /\ is "=" (s1 k) = false /\ blank (s1 k) = false).
    { clear. intros k H. repeat split; try now apply letter_blank. all: destruct k as [[] [] [] [] [] [] [] []]; vm_compute in H; try discriminate; reflexivity. }
    destruct (Y k K2) as (Y1 & Y2 & Y3 & Y4). rewrite Y1, Y2.
    change (s1 k :: l ++ "=" :: ?r)%list with ((s1 k :: l) ++ "=" :: r)%list. rewrite span_all; [|eapply Forall_impl; [|exact NC]; intros x (j & -> & J); destruct (Y j J) as (-> & -> & -> & ->); reflexivity|reflexivity].
    rewrite (span_none blank) by reflexivity. cbn [snd]. change (is "=" "=") with true. cbv iota. rewrite (span_none blank) by reflexivity. cbn [snd]. change (is """" """" || is "'" """") with true. cbv iota.
    rewrite span_all.
    + cbv iota beta. fold more. unfold more. rewrite IH by lia. rewrite chars_concat, decode_text. rewrite CC, lower_name by exact NF. now destruct a.
    + assert (V := chars_avoid """" _ (text_avoids """" (snd a) (or_intror (or_intror (or_introl eq_refl))))). eapply Forall_impl; [|exact V]. cbn. intros c C. unfold is, s1 in C. now rewrite C.
    + reflexivity.
Qed.
(** ** Pieces *)
Lemma comment_end s rest : whole s = true -> (forall a b, s ++ "-->" = a ++ "-->" ++ b -> b = "") -> skip_comment (chars (s ++ "-->") ++ rest) = rest.
Proof.
  intros _ H. rewrite chars_app by reflexivity. change (chars "-->") with ["-"; "-"; ">"].
  assert (K : forall a b, (chars s ++ ["-"; "-"; ">"] = a ++ "-" :: "-" :: ">" :: b)%list -> b = []).
  { intros a b E. pose proof E as E0. apply (f_equal sconcat) in E. rewrite !sconcat_app, chars_concat in E. cbn in E. specialize (H (sconcat a) (sconcat b) E). 
    assert (F : Forall (fun c => c <> "") (chars s ++ ["-"; "-"; ">"])) by (apply Forall_app; split; [apply chars_nonempty|repeat constructor; discriminate]). rewrite E0 in F. apply Forall_app in F as [_ F]. inversion_clear F. inversion_clear H1. inversion_clear H3. destruct b as [|x b]; [reflexivity|]. inversion_clear H4. destruct x; [congruence|discriminate]. }
  clear H. revert K. generalize (chars s). intros l. induction l as [|x l IH]; intros K; [reflexivity|].
  assert (IH' := IH (fun a b E => K (x :: a) b (f_equal (cons x) E))). clear IH. rewrite <- app_assoc in *. cbn [app] in *.
  assert (T : exists y z w, (l ++ ["-"; "-"; ">"])%list = y :: z :: w /\ w <> []) by (destruct l as [|a [|b [|c l]]]; cbn; repeat eexists; try discriminate). destruct T as (y & z & w & T & NW). 
  assert (T2 : (l ++ "-" :: "-" :: ">" :: rest = y :: z :: w ++ rest)%list) by (change ("-" :: "-" :: ">" :: rest)%list with (["-"; "-"; ">"] ++ rest)%list; rewrite app_assoc, T; reflexivity).
  rewrite T2 in *. cbn [HtmlInModel.skip_comment]. destruct (is "-" x && is "-" y && is ">" z) eqn:Q; [|exact IH'].
  apply andb_prop in Q as [Q Q3]. apply andb_prop in Q as [Q1 Q2]. unfold is in *. apply String.eqb_eq in Q1, Q2, Q3. subst x y z. exfalso. apply NW. apply (K [] w). cbn [app]. now rewrite T.
Qed.
(** Closing tags. *)
Lemma close_read n rest f : tag_name n -> tokens (S f) (chars (write_piece (EndTag n)) ++ rest) = match tokens f rest with Some evs => Some (Close n :: evs) | None => None end.
Proof.
  intros [NE F]. cbn [write_piece]. change ("</" ++ n ++ ">") with (String "<" (String "/" (n ++ ">"))). assert (W : whole (n ++ ">") = true) by now apply name_whole.
  rewrite (chars_cons "<") by reflexivity. rewrite (chars_cons "/") by exact W. rewrite chars_app by reflexivity. change (chars ">") with [">"]. cbn [app]. rewrite <- app_assoc. cbn [app HtmlInModel.tokens].
  change (is "<" (s1 "<")) with true. change (is "!" (s1 "/")) with false. change (is "/" (s1 "/")) with true. cbn [andb]. cbv iota. rewrite (no_blank_name n ">" rest) by now split. cbn [snd].
  assert (NC := name_chars n F). rewrite span_all; [|eapply Forall_impl; [|exact NC]; intros x (k & -> & K); destruct k as [[] [] [] [] [] [] [] []]; vm_compute in K; try discriminate; reflexivity|reflexivity].
  assert (FN : filter name_char (chars n) = chars n). { clear NE. induction NC as [|x l (k & -> & K) NC IH]; [reflexivity|]. cbn [filter]. rewrite letter_char by exact K. now rewrite IH. }
  rewrite FN, chars_concat, (lower_name n F). cbn [tail]. destruct (String.eqb_spec n ""); [congruence|]. reflexivity.
Qed.
(** Opening tags. *)
Lemma write_attrs_shape attrs : exists c r, sconcat (map write_attr attrs) ++ ">" = String c r /\ name_char (s1 c) = false /\ whole (String c r) = true.
Proof. destruct attrs as [|a l]; [exists ">"%char, ""|exists " "%char; eexists]; (split; [reflexivity|]); split; try reflexivity; [exact gt_stop|exact space_stop]. Qed.
Lemma chars_whole_head c s : exists x l, chars (String c s) = String c x :: l.
Proof. cbn [chars]. destruct (chars s) as [|[|d x] l]; eauto. destruct (continues d); eauto. Qed.
Lemma attrs_chars_head attrs rest : Forall (fun a => tag_name (fst a) /\ whole (snd a) = true) attrs -> exists c r, (chars (sconcat (map write_attr attrs) ++ ">") ++ rest = s1 c :: r)%list /\ name_char (s1 c) = false.
Proof.
  intros F. destruct F as [|a attrs [N W] F]; [exists ">"%char; eexists; split; [reflexivity|exact gt_stop]|].
  exists " "%char. change (sconcat (map write_attr (a :: attrs)) ++ ">") with ((write_attr a ++ sconcat (map write_attr attrs)) ++ ">"). rewrite sapp_assoc, attr_chars; [|assumption|assumption|now destruct attrs]. eexists. split; [reflexivity|exact space_stop].
Qed.
Lemma attrs_length attrs : length attrs <= length (chars (sconcat (map write_attr attrs) ++ ">")).
Proof.
  assert (L : forall a s, whole s = true -> length (chars (a ++ s)) = length (chars a) + length (chars s)) by (intros; rewrite chars_app, app_length; auto).
  induction attrs as [|a attrs IH]; [cbn; lia|]. change (sconcat (map write_attr (a :: attrs)) ++ ">") with ((write_attr a ++ sconcat (map write_attr attrs)) ++ ">"). rewrite sapp_assoc, L by now destruct attrs. cbn [length].
  assert (1 <= length (chars (write_attr a))). { unfold write_attr. cbn [append]. destruct (chars_whole_head " " (fst a ++ "=""" ++ html_text (snd a) ++ """")) as (x & l & E). cbn [append] in E. rewrite E. cbn. lia. } lia.
Qed.
Lemma open_read n attrs rest f : tag_name n -> Forall (fun a => tag_name (fst a) /\ whole (snd a) = true) attrs ->
  tokens (S f) (chars (write_piece (Tag n attrs)) ++ rest) = match tokens f rest with Some evs => Some (Open n attrs :: evs) | None => None end.
Proof.
  intros [NE F] A. cbn [write_piece]. destruct (write_attrs_shape attrs) as (c0 & r0 & E0 & S0 & W0).
  change ("<" ++ n ++ sconcat (map write_attr attrs) ++ ">") with (String "<" (n ++ sconcat (map write_attr attrs) ++ ">")). rewrite chars_cons by (apply name_whole; [exact F|rewrite E0; exact W0]). rewrite chars_app by (rewrite E0; exact W0).
  cbn [app]. rewrite <- app_assoc. destruct (attrs_chars_head attrs rest A) as (c & r & E & Sc).
  assert (LA := attrs_length attrs). set (w := (chars (sconcat (map write_attr attrs) ++ ">") ++ rest)%list) in *. cbn [HtmlInModel.tokens]. change (is "<" (s1 "<")) with true. cbv iota.
  assert (NC := name_chars n F). assert (CC := chars_concat n). assert (NB := no_blank_name n (s1 c) r (conj NE F)). assert (NS := name_span n (s1 c) r F Sc). rewrite <- E in NB, NS. destruct (chars n) as [|x l]; [cbn in CC; congruence|]. cbn [app] in *. inversion NC as [|? ? (k & K1 & K2) NL]; subst x l0.
  assert (Y : is "!" (s1 k) = false /\ is "/" (s1 k) = false) by (destruct k as [[] [] [] [] [] [] [] []]; vm_compute in K2; try discriminate; now split). destruct Y as [Y1 Y2]. rewrite Y1, Y2. cbn [andb]. cbv iota. rewrite NB. cbn [snd]. rewrite NS. rewrite CC, (lower_name n F).
  unfold w. rewrite attrs_read; [|exact A|rewrite app_length; lia]. cbn [tail]. destruct (String.eqb_spec n ""); [congruence|]. reflexivity.
Qed.
(** Text. *)
Definition stops (rest : list string) : Prop := match rest with c :: _ => c = "<" | [] => True end.
Lemma words_read t rest f : t <> "" -> sforall (fun c => negb (Ascii.eqb c "<")) t = true -> stops rest ->
  tokens (S f) (chars t ++ rest) = match tokens f rest with Some evs => Some (if String.eqb (trim t) "" then evs else Chars (decode_entities t) :: evs) | None => None end.
Proof.
  intros NE F ST. assert (A := chars_avoid _ _ F). assert (CC := chars_concat t). assert (SP : span (fun c => negb (is "<" c)) (chars t ++ rest) = (chars t, rest)).
  { apply span_all; [eapply Forall_impl; [|exact A]; cbn; intros c C; unfold s1 in C; now rewrite C|]. destruct rest; [easy|]. cbn in ST. now subst s. }
  destruct (chars t) as [|x l]; [cbn in CC; congruence|]. cbn [app] in *. cbn [HtmlInModel.tokens]. inversion_clear A. change (s1 "<") with "<" in H. rewrite H. rewrite SP, CC. reflexivity.
Qed.
(** Comments and declarations. *)
Lemma comment_read s rest f : whole s = true -> (forall a b, s ++ "-->" = a ++ "-->" ++ b -> b = "") -> tokens (S f) (chars (write_piece (Comment s)) ++ rest) = tokens f rest.
Proof.
  intros W H. cbn [write_piece]. change ("<!--" ++ s ++ "-->") with (String "<" (String "!" (String "-" (String "-" (s ++ "-->"))))). assert (W2 : whole (s ++ "-->") = true) by now destruct s.
  rewrite !chars_cons by (reflexivity || exact W2). cbn [app HtmlInModel.tokens]. change (is "<" (s1 "<")) with true. change (is "!" (s1 "!")) with true. change (is "-" (s1 "-")) with true. cbn [andb tail]. cbv iota. now rewrite comment_end.
Qed.
Lemma declaration_read s rest f : whole s = true -> starts_with "--" s = false -> sforall (fun c => negb (Ascii.eqb c ">")) s = true -> tokens (S f) (chars (write_piece (Declaration s)) ++ rest) = tokens f rest.
Proof.
  intros W D F. cbn [write_piece]. change ("<!" ++ s ++ ">") with (String "<" (String "!" (s ++ ">"))). assert (W2 : whole (s ++ ">") = true) by now destruct s.
  rewrite !chars_cons by (reflexivity || exact W2). rewrite chars_app by reflexivity. change (chars ">") with [">"]. cbn [app]. rewrite <- app_assoc. cbn [app HtmlInModel.tokens]. change (is "<" (s1 "<")) with true. change (is "!" (s1 "!")) with true. cbv iota. cbn [andb].
  match goal with |- (if ?b then _ else _) = _ => assert (Q : b = false) end.
  { assert (CC := chars_concat s). destruct (chars s) as [|x [|y l]]; cbn [app]; [now destruct rest|destruct (is "-" x); reflexivity|]. destruct (is "-" x && is "-" y) eqn:Q; [|reflexivity]. apply andb_prop in Q as [Q1 Q2]. unfold is in *. apply String.eqb_eq in Q1, Q2. subst x y. exfalso. rewrite <- CC in D. discriminate. }
  rewrite Q. clear Q. assert (A := chars_avoid _ _ F). rewrite (span_all _ (s1 "!" :: chars s) (">" :: rest)); [reflexivity|constructor; [reflexivity|]|reflexivity]. eapply Forall_impl; [|exact A]. cbn. intros c C. unfold s1 in C. now rewrite C.
Qed.
(** ** Documents *)
Lemma whole_piece p : piece_ok trim p -> whole (write_piece p) = true.
Proof. destruct p; cbn; try reflexivity; intros H; [now apply text_whole|apply H]. Qed.
Lemma piece_whole_app p s : piece_ok trim p -> whole s = true -> whole (write_piece p ++ s) = true.
Proof. intros P W. assert (H := whole_piece p P). destruct (write_piece p); [exact W|exact H]. Qed.
Lemma html_whole l : Forall (piece_ok trim) l -> whole (write_html l) = true.
Proof. induction 1 as [|p l P F IH]; [reflexivity|]. change (write_html (p :: l)) with (write_piece p ++ write_html l). now apply piece_whole_app. Qed.
Lemma write_chars p l : Forall (piece_ok trim) l -> chars (write_html (p :: l)) = (chars (write_piece p) ++ chars (write_html l))%list.
Proof. intros F. change (write_html (p :: l)) with (write_piece p ++ write_html l). apply chars_app. now apply html_whole. Qed.
Hypothesis trim_empty : trim "" = "".
Lemma text_stops p l : Forall (piece_ok trim) l -> apart (p :: l) -> is_text p = true -> stops (chars (write_html l)).
Proof.
  intros F A T. destruct l as [|q l]; [exact I|]. destruct A as [A _]. rewrite T in A. inversion_clear F. destruct q; try discriminate; rewrite write_chars by assumption; cbn [write_piece].
  all: cbn [append]; match goal with |- context [chars (String "<" ?s)] => rewrite (chars_cons "<" s) end; try reflexivity.
  destruct H as [[NE F] A2]. apply name_whole; [exact F|]. destruct (write_attrs_shape attrs) as (c & r & E & _ & W). cbn [append] in E. now rewrite E.
Qed.
Lemma pieces_read l : Forall (piece_ok trim) l -> apart l -> forall f, length l < f -> tokens f (chars (write_html l)) = Some (flat_map piece_event l).
Proof.
  induction 1 as [|p l P F IH]; intros A f L; (destruct f as [|f]; [cbn in L; lia|]); [reflexivity|]. cbn [length] in L.
  assert (AL : apart l) by (destruct l; [exact I|apply A]). assert (IH' : forall g, length l < g -> tokens g (chars (write_html l)) = Some (flat_map piece_event l)) by (intros; now apply IH). clear IH.
  rewrite write_chars by exact F. cbn [flat_map]. destruct p; cbn [piece_event app]; cbn [piece_ok] in P.
  - destruct P. rewrite open_read by assumption. now rewrite IH' by lia.
  - rewrite close_read by assumption. now rewrite IH' by lia.
  - destruct P as [_ P]. cbn [write_piece]. rewrite words_read; [|intros E; now rewrite E in P|apply text_avoids; now left|now apply (text_stops (Words t))].
    rewrite IH' by lia. rewrite decode_text. destruct (String.eqb_spec (trim (html_text t)) ""); [congruence|reflexivity].
  - destruct P as (NE & _ & P & T). cbn [write_piece]. rewrite words_read; [|exact NE|exact P|now apply (text_stops (Gap s))]. rewrite IH' by lia. now rewrite T.
  - destruct P. rewrite comment_read by assumption. apply IH'; lia.
  - destruct P as (? & ? & ?). rewrite declaration_read by assumption. apply IH'; lia.
Qed.
Lemma piece_long p : piece_ok trim p -> 1 <= length (chars (write_piece p)).
Proof.
  intros P. assert (NE : write_piece p <> ""). { destruct p; cbn; try discriminate; intros E; cbn [piece_ok] in P; [rewrite E in P; now apply (proj2 P)|now apply (proj1 P)]. }
  destruct (write_piece p) as [|c s]; [congruence|]. destruct (chars_whole_head c s) as (x & l & ->). cbn. lia.
Qed.
Lemma pieces_long l : Forall (piece_ok trim) l -> length l <= length (chars (write_html l)).
Proof. induction 1 as [|p l P F IH]; [cbn; lia|]. rewrite write_chars by exact F. rewrite app_length. assert (H := piece_long p P). cbn [length]. lia. Qed.
Theorem tokenize_write l : Forall (piece_ok trim) l -> apart l -> tokenize (chars (write_html l)) = Some (flat_map piece_event l).
Proof. intros F A. unfold HtmlInModel.tokenize. apply pieces_read; [exact F|exact A|]. assert (H := pieces_long l F). lia. Qed.
End T.
