(** Proofs about the command-line tool: its JSON output. *)
From Coq Require Import String Ascii List Bool Arith NArith Lia DecimalString DecimalN.
From Verif Require Import Str ValidModel CliModel CliSpec.
Import ListNotations.
Open Scope nat_scope.
Open Scope string_scope.
Local Arguments String.append _ _ : simpl nomatch.

(** ** Words *)
Lemma words_mono n : forall m s l, words n s = Some l -> n <= m -> words m s = Some l.
Proof.
  induction n as [|n IH]; intros m s l H L.
  - destruct s; [|discriminate]. now destruct m.
  - destruct m as [|m]; [lia|]. destruct s as [|c s]; [exact H|]. cbn [words] in *. apply le_S_n in L.
    assert (K : forall t x, option_map (cons t) (words n x) = Some l -> option_map (cons t) (words m x) = Some l).
    { intros t x E. destruct (words n x) as [w|] eqn:W; [|discriminate]. now rewrite (IH m x w W L). }
    destruct (blank_char c); [now apply IH|]. destruct (punct c); [now apply K|]. destruct (Ascii.eqb c DQ).
    { destruct (string_rest s) as [[t r]|]; [now apply K|discriminate]. }
    destruct (is_digit c). { destruct (span is_digit (String c s)) as [d r]. destruct (number_ok d); [now apply K|discriminate]. }
    destruct (letter c); [|discriminate]. destruct (span letter (String c s)) as [d r]. now apply K.
Qed.

Definition steps (a : string) (t : list token) : Prop :=
  forall n b l, words n b = Some l -> words (n + String.length a) (a ++ b) = Some (t ++ l)%list.
Lemma steps_app a b t u : steps a t -> steps b u -> steps (a ++ b) (t ++ u).
Proof. intros A B n c l H. rewrite sapp_assoc, slength_app, (Nat.add_comm (String.length a)), Nat.add_assoc, <- app_assoc. now apply A, B. Qed.
Lemma steps_app0 a b u : steps a [] -> steps b u -> steps (a ++ b) u.
Proof. exact (steps_app a b [] u). Qed.
Lemma steps_all a t : steps a t -> words (String.length a) a = Some t.
Proof. intros H. specialize (H 0 "" [] eq_refl). rewrite sapp_nil_r, app_nil_r in H. exact H. Qed.

Definition code (a b c d : ascii) : option string :=
  match hex_of a, hex_of b, hex_of c, hex_of d with Some a, Some b, Some c, Some d => utf8 (a * 4096 + b * 256 + c * 16 + d)%N | _, _, _, _ => None end.
Lemma rest_code n x s t r : code "0" "0" (hex_lower (n / 16)) (hex_lower (n mod 16)) = Some x -> string_rest s = Some (t, r) -> string_rest (unicode_escape n ++ s) = Some (x ++ t, r).
Proof.
  unfold unicode_escape. rewrite !sapp_assoc. generalize (hex_lower (n / 16)), (hex_lower (n mod 16)). intros c d. unfold code.
  change (string_rest ("\u00" ++ s1 c ++ s1 d ++ s)) with (match hex_of "0", hex_of "0", hex_of c, hex_of d with
            | Some a, Some b, Some c, Some d =>
                match utf8 (a * 4096 + b * 256 + c * 16 + d)%N, string_rest s with
                | Some x, Some (t, r) => Some (x ++ t, r)
                | _, _ => None
                end
            | _, _, _, _ => None
            end).
  destruct (hex_of "0"), (hex_of c), (hex_of d); try discriminate. now intros -> ->.
Qed.
Lemma rest_escaped e y s t r : escaped e = Some y -> string_rest s = Some (t, r) -> string_rest (String "\" (String e s)) = Some (y ++ t, r).
Proof.
  intros E R. destruct e as [[] [] [] [] [] [] [] []]; try discriminate E; injection E as <-;
  match goal with |- string_rest (String _ (String ?e s)) = Some (?y ++ _, _) =>
    change (match string_rest s with Some (t, r) => Some (y ++ t, r) | None => None end = Some (y ++ t, r)) end; now rewrite R.
Qed.
Lemma rest_plain c s t r : Ascii.eqb c DQ = false -> Ascii.eqb c "\" = false -> (N_of_ascii c <? 32)%N = false -> string_rest s = Some (t, r) -> string_rest (String c s) = Some (String c t, r).
Proof.
  intros A B C D. change (string_rest (String c s)) with (if Ascii.eqb c DQ then Some ("", s)
      else if Ascii.eqb c "\" then
        match s with
        | String "u" (String a (String b (String c (String d s)))) =>
            match hex_of a, hex_of b, hex_of c, hex_of d with
            | Some a, Some b, Some c, Some d =>
                match utf8 (a * 4096 + b * 256 + c * 16 + d)%N, string_rest s with
                | Some x, Some (t, r) => Some (x ++ t, r)
                | _, _ => None
                end
            | _, _, _, _ => None
            end
        | String e s => match escaped e, string_rest s with Some x, Some (t, r) => Some (x ++ t, r) | _, _ => None end
        | "" => None
        end
      else if (N_of_ascii c <? 32)%N then None
      else match string_rest s with Some (t, r) => Some (String c t, r) | None => None end).
  now rewrite A, B, C, D.
Qed.
Lemma body_back : forall s r, string_rest (json_body s ++ dq ++ r) = Some (s, r).
Proof.
  enough (E : forall n s r, String.length s <= n -> string_rest (json_body s ++ dq ++ r) = Some (s, r)) by (intros s r; exact (E _ s r (le_n _))).
  induction n as [|n IH]; intros [|c s] r L; try reflexivity; [cbn in L; lia|].
  cbn [String.length] in L. apply le_S_n in L. pose proof (IH s r L) as I.
  destruct (Ascii.eqb c "194") eqn:E.
  - apply Ascii.eqb_eq in E as ->. destruct s as [|d s]; [reflexivity|].
    cbn [String.length] in L. pose proof (IH s r ltac:(lia)) as J. clear IH.
    change (json_body (String "194" (String d s))) with (if is_c1 d then unicode_escape (N_of_ascii d) ++ json_body s else String "194" (json_body (String d s))).
    destruct (is_c1 d) eqn:D.
    + set (x := json_body s ++ dq ++ r) in *. rewrite sapp_assoc. fold x. clearbody x. clear I.
      destruct d as [[] [] [] [] [] [] [] []]; try discriminate D; refine (rest_code _ (s1 "194" ++ s1 _) _ _ _ _ J); vm_compute; reflexivity.
    + revert I. generalize (json_body (String d s)). intros x I.
      change (match string_rest (x ++ dq ++ r) with Some (t, r) => Some (String "194" t, r) | None => None end = Some (String "194" (String d s), r)). now rewrite I.
  - clear IH. revert E. set (x := json_body s ++ dq ++ r) in *. cbn [json_body].
    destruct (Ascii.eqb c DQ) eqn:C1. { intros _. apply Ascii.eqb_eq in C1 as ->. rewrite sapp_assoc. fold x. exact (rest_escaped DQ (s1 DQ) _ _ _ eq_refl I). }
    destruct (Ascii.eqb c "\") eqn:C2. { intros _. apply Ascii.eqb_eq in C2 as ->. rewrite sapp_assoc. fold x. exact (rest_escaped "\" (s1 "\") _ _ _ eq_refl I). }
    destruct (Ascii.eqb c LF) eqn:C3. { intros _. apply Ascii.eqb_eq in C3 as ->. rewrite sapp_assoc. fold x. exact (rest_escaped "n" (s1 LF) _ _ _ eq_refl I). }
    destruct (Ascii.eqb c CR) eqn:C4. { intros _. apply Ascii.eqb_eq in C4 as ->. rewrite sapp_assoc. fold x. exact (rest_escaped "r" (s1 CR) _ _ _ eq_refl I). }
    destruct (Ascii.eqb c TAB) eqn:C5. { intros _. apply Ascii.eqb_eq in C5 as ->. rewrite sapp_assoc. fold x. exact (rest_escaped "t" (s1 TAB) _ _ _ eq_refl I). }
    destruct ((N_of_ascii c <? 32) || (N_of_ascii c =? 127))%N eqn:C6.
    + intros _. rewrite sapp_assoc. fold x. clearbody x. clear C1 C2 C3 C4 C5.
      destruct c as [[] [] [] [] [] [] [] []]; try discriminate C6; refine (rest_code _ (s1 _) _ _ _ _ I); vm_compute; reflexivity.
    + intros ->. apply orb_false_iff in C6 as [C6 _]. exact (rest_plain c x s r C1 C2 C6 I).
Qed.
Lemma steps_string s : steps (json_string s) [TStr s].
Proof.
  intros n b l H. unfold json_string. rewrite !sapp_assoc, Nat.add_comm. cbn [String.append String.length dq s1 plus].
  change (match string_rest (json_body s ++ dq ++ b) with Some (t, r) => option_map (cons (TStr t)) (words (String.length (json_body s ++ dq) + n) r) | None => None end = Some ([TStr s] ++ l)%list).
  rewrite body_back. erewrite words_mono; [reflexivity|exact H|lia].
Qed.

Lemma dec_number n : number_ok (dec n) = true.
Proof.
  unfold dec. assert (U : N.to_uint n = Decimal.unorm (N.to_uint n)) by (rewrite <- Unsigned.to_of; now rewrite Unsigned.of_to).
  rewrite U. generalize (N.to_uint n). clear. intros d. induction d; try reflexivity.
  change (Decimal.unorm (Decimal.D0 d)) with (Decimal.unorm d). exact IHd.
Qed.
Lemma span_app p s c r : sforall p s = true -> p c = false -> span p (s ++ String c r) = (s, String c r).
Proof. intros A B. induction s as [|d s IH]; [change (span p ("" ++ String c r)) with (if p c then let (a, b) := span p r in (String c a, b) else ("", String c r)); now rewrite B|].
  cbn [sforall] in A. apply andb_true_iff in A as [A1 A]. change (span p (String d s ++ String c r)) with (if p d then let (a, b) := span p (s ++ String c r) in (String d a, b) else ("", String d (s ++ String c r))).
  now rewrite A1, (IH A). Qed.
Lemma steps_number n : steps (dec n ++ ",") [TNum (dec n); TP ","].
Proof.
  intros m b l H. pose proof (dec_digits n) as D. pose proof (dec_number n) as K. pose proof (dec_nonempty n) as E. destruct (dec n) as [|c s]; [congruence|].
  rewrite sapp_assoc, slength_app, Nat.add_comm. cbn [String.append String.length plus].
  assert (C : is_digit c = true) by (cbn [sforall] in D; now apply andb_true_iff in D as [? _]).
  assert (B : blank_char c = false /\ punct c = false /\ Ascii.eqb c DQ = false) by (clear -C; destruct c as [[] [] [] [] [] [] [] []]; try discriminate C; repeat split).
  destruct B as (B1 & B2 & B3). cbn [words]. rewrite B1, B2, B3, C. change (String c (s ++ String "," b)) with (String c s ++ String "," b).
  rewrite (span_app is_digit (String c s) "," b D eq_refl), K.
  replace (String.length s + 1 + m) with (S (String.length s + m)) by lia. cbn [words]. change (blank_char ",") with false. change (punct ",") with true. cbn iota.
  erewrite words_mono; [reflexivity|exact H|lia].
Qed.

(** ** A finding *)
Definition finding_words (i : finding) : list token :=
  [TP "{"; TStr "severity"; TP ":"; TStr (match f_severity i with Error => "error" | Warning => "warning" end); TP ",";
   TStr "category"; TP ":"; TStr (named (f_category i)); TP ",";
   TStr "path"; TP ":"; match f_path i with Some p => TStr p | None => TName "null" end; TP ",";
   TStr "message"; TP ":"; TStr (f_message i); TP "}"].
Lemma steps_lines a : sforall blank_char a = true -> steps a [].
Proof.
  intros A n b l H. revert A. induction a as [|c a IH]; intros A; [cbn; now rewrite Nat.add_0_r|]. cbn [sforall] in A. apply andb_true_iff in A as [B A].
  cbn [String.length String.append]. rewrite Nat.add_succ_r. cbn [words]. rewrite B. now apply IH.
Qed.
Lemma steps_mark c : punct c = true -> blank_char c = false -> steps (s1 c) [TP c].
Proof. intros P B n b l H. rewrite Nat.add_1_r. cbn [s1 String.append words]. now rewrite P, B, H. Qed.
Lemma steps_quoted k : json_body k = k -> steps (dq ++ k ++ dq) [TStr k].
Proof. intros E. pose proof (steps_string k) as H. unfold json_string in H. now rewrite E in H. Qed.
Lemma steps_key k : json_body k = k -> steps (key k) [TStr k; TP ":"].
Proof.
  intros E. assert (A : key k = (dq ++ k ++ dq) ++ s1 ":" ++ " ") by (unfold key; now rewrite !sapp_assoc). rewrite A.
  exact (steps_app _ _ [_] [_] (steps_quoted k E) (steps_app _ _ [_] [] (steps_mark ":" eq_refl eq_refl) (steps_lines " " eq_refl))).
Qed.
Lemma steps_name w : sforall letter w = true -> w <> "" -> steps (w ++ ",") [TName w; TP ","].
Proof.
  intros D E m b l H. destruct w as [|c s]; [congruence|].
  rewrite sapp_assoc, slength_app, Nat.add_comm. cbn [String.append String.length plus].
  assert (C : letter c = true) by (cbn [sforall] in D; now apply andb_true_iff in D as [? _]).
  assert (B : blank_char c = false /\ punct c = false /\ Ascii.eqb c DQ = false /\ is_digit c = false) by (clear -C; destruct c as [[] [] [] [] [] [] [] []]; try discriminate C; repeat split).
  destruct B as (B1 & B2 & B3 & B4). cbn [words]. rewrite B1, B2, B3, B4, C. change (String c (s ++ String "," b)) with (String c s ++ String "," b).
  rewrite (span_app letter (String c s) "," b D eq_refl).
  replace (String.length s + 1 + m) with (S (String.length s + m)) by lia. cbn [words]. change (blank_char ",") with false. change (punct ",") with true. cbn iota.
  erewrite words_mono; [reflexivity|exact H|lia].
Qed.
Lemma steps_line : steps ("," ++ nl) [TP ","].
Proof. exact (steps_app (s1 ",") nl [_] [] (steps_mark "," eq_refl eq_refl) (steps_lines nl eq_refl)). Qed.
Lemma steps_finding comma i : steps (json_finding comma i) (finding_words i ++ (if comma then [TP ","] else [])).
Proof.
  assert (A0 : steps ("    " ++ s1 "{" ++ nl ++ "      ") [TP "{"]) by
    exact (steps_app0 _ _ _ (steps_lines "    " eq_refl) (steps_app _ _ [_] [] (steps_mark "{" eq_refl eq_refl) (steps_lines (nl ++ "      ") eq_refl))).
  assert (A : steps (dq ++ (match f_severity i with Error => "error" | Warning => "warning" end) ++ dq) [TStr (match f_severity i with Error => "error" | Warning => "warning" end)])
    by (apply steps_quoted; now destruct (f_severity i)).
  assert (B : steps (dq ++ category_name (f_category i) ++ dq) [TStr (named (f_category i))]) by (replace (named (f_category i)) with (category_name (f_category i)) by (now destruct (f_category i)); apply steps_quoted; now destruct (f_category i)).
  assert (D : steps ((match f_path i with Some p => json_string p | None => "null" end) ++ ",") [match f_path i with Some p => TStr p | None => TName "null" end; TP ","]).
  { destruct (f_path i) as [p|]; [exact (steps_app _ _ [_] [_] (steps_string p) (steps_mark "," eq_refl eq_refl))|apply steps_name; [reflexivity|discriminate]]. }
  assert (F : steps (nl ++ "    " ++ s1 "}" ++ (if comma then "," else "") ++ nl) (TP "}" :: if comma then [TP ","] else [])).
  { refine (steps_app0 _ _ _ (steps_lines nl eq_refl) (steps_app0 _ _ _ (steps_lines "    " eq_refl) (steps_app _ _ [_] _ (steps_mark "}" eq_refl eq_refl) _))). destruct comma; [exact steps_line|now apply steps_lines]. }
  assert (N : steps (nl ++ "      ") []) by now apply steps_lines. assert (Z : steps ("," ++ nl ++ "      ") [TP ","]) by exact (steps_app _ _ [_] [] (steps_mark "," eq_refl eq_refl) N).
  pose proof (steps_app _ _ _ _ A0 (steps_app _ _ _ _ (steps_key "severity" eq_refl) (steps_app _ _ _ _ A (steps_app _ _ _ _ Z (steps_app _ _ _ _ (steps_key "category" eq_refl)
    (steps_app _ _ _ _ B (steps_app _ _ _ _ Z (steps_app _ _ _ _ (steps_key "path" eq_refl) (steps_app _ _ _ _ D (steps_app _ _ _ _ N (steps_app _ _ _ _ (steps_key "message" eq_refl)
    (steps_app _ _ _ _ (steps_string (f_message i)) F)))))))))))) as G.
  cbn [List.app] in G. unfold json_finding, finding_words. cbn [List.app]. revert G. rewrite !sapp_assoc. exact (fun x => x).
Qed.
Fixpoint findings_words (l : list finding) : list token :=
  match l with
  | [] => []
  | [i] => finding_words i
  | i :: l => (finding_words i ++ TP "," :: findings_words l)%list
  end.
Lemma steps_findings l : forall k n, n = k + length l -> steps (json_findings n k l) (findings_words l).
Proof.
  induction l as [|i l IH]; intros k n E; [now apply steps_lines|]. cbn [json_findings findings_words]. cbn [length] in E.
  pose proof (steps_app _ _ _ _ (steps_finding (Nat.ltb (k + 1) n) i) (IH (S k) n ltac:(lia))) as G. destruct l as [|j l].
  - rewrite (proj2 (Nat.ltb_ge _ _)) in G by (cbn in E; lia). rewrite (proj2 (Nat.ltb_ge _ _)) by (cbn in E; lia). cbn [json_findings findings_words] in *. now rewrite !app_nil_r in G.
  - rewrite (proj2 (Nat.ltb_lt _ _)) in G by (cbn in E; lia). rewrite (proj2 (Nat.ltb_lt _ _)) by (cbn in E; lia). rewrite <- app_assoc in G. exact G.
Qed.

Lemma counts r : error_count r = how_many Error r /\ warning_count r = how_many Warning r /\ report_is_valid r = Nat.eqb (how_many Error r) 0.
Proof.
  unfold error_count, warning_count, report_is_valid. induction r as [|i r (A & B & C)]; [repeat split|].
  cbn [filter how_many forallb]. unfold is_error in *. destruct (f_severity i); cbn [negb length andb Nat.eqb]; rewrite ?A, ?B, ?C; repeat split; assumption.
Qed.
Definition report_words (file : string) (r : list finding) : list token :=
  ([TP "{"; TStr "file"; TP ":"; TStr file; TP ","; TStr "valid"; TP ":"; TName (if Nat.eqb (how_many Error r) 0 then "true" else "false"); TP ",";
    TStr "error_count"; TP ":"; TNum (decn (how_many Error r)); TP ","; TStr "warning_count"; TP ":"; TNum (decn (how_many Warning r)); TP ",";
    TStr "issues"; TP ":"; TP "["] ++ findings_words r ++ [TP "]"; TP "}"])%list.
Lemma steps_report file r : steps (print_json file r) (report_words file r).
Proof.
  destruct (counts r) as (CE & CW & CV). unfold print_json. rewrite CE, CW, CV.
  assert (A : steps (s1 "{" ++ nl ++ "  ") [TP "{"]) by exact (steps_app _ _ [_] [] (steps_mark "{" eq_refl eq_refl) (steps_lines (nl ++ "  ") eq_refl)).
  assert (B : steps ((if Nat.eqb (how_many Error r) 0 then "true" else "false") ++ ",") [TName (if Nat.eqb (how_many Error r) 0 then "true" else "false"); TP ","])
    by (destruct (Nat.eqb (how_many Error r) 0); apply steps_name; (reflexivity || discriminate)).
  assert (N : steps (nl ++ "  ") []) by now apply steps_lines. assert (Z : steps ("," ++ nl ++ "  ") [TP ","]) by exact (steps_app _ _ [_] [] (steps_mark "," eq_refl eq_refl) N).
  assert (D : steps (s1 "[" ++ nl) [TP "["]) by exact (steps_app _ _ [_] [] (steps_mark "[" eq_refl eq_refl) (steps_lines nl eq_refl)).
  assert (E : steps ("  " ++ s1 "]" ++ nl ++ s1 "}" ++ nl) [TP "]"; TP "}"])
    by exact (steps_app0 _ _ _ (steps_lines "  " eq_refl) (steps_app _ _ [_] [_] (steps_mark "]" eq_refl eq_refl) (steps_app0 _ _ _ (steps_lines nl eq_refl) (steps_app _ _ [_] [] (steps_mark "}" eq_refl eq_refl) (steps_lines nl eq_refl))))).
  pose proof (steps_findings r 0 (length r) eq_refl) as F.
  pose proof (steps_app _ _ _ _ A (steps_app _ _ _ _ (steps_key "file" eq_refl) (steps_app _ _ _ _ (steps_string file) (steps_app _ _ _ _ Z (steps_app _ _ _ _ (steps_key "valid" eq_refl) (steps_app _ _ _ _ B
    (steps_app _ _ _ _ N (steps_app _ _ _ _ (steps_key "error_count" eq_refl) (steps_app _ _ _ _ (steps_number (N.of_nat (how_many Error r)))
    (steps_app _ _ _ _ N (steps_app _ _ _ _ (steps_key "warning_count" eq_refl) (steps_app _ _ _ _ (steps_number (N.of_nat (how_many Warning r)))
    (steps_app _ _ _ _ N (steps_app _ _ _ _ (steps_key "issues" eq_refl) (steps_app _ _ _ _ D (steps_app _ _ _ _ F E)))))))))))))))) as G.
  unfold report_words. cbn [List.app] in *. revert G. rewrite !sapp_assoc. exact (fun x => x).
Qed.

Lemma value_finding n i rest : value (n + 9) (finding_words i ++ rest) = Some (finding_json i, rest).
Proof. rewrite Nat.add_comm. unfold finding_words, finding_json. destruct (f_path i); reflexivity. Qed.
Lemma value_findings l : forall i n rest, elements (n + 10 + length l) (findings_words (i :: l) ++ TP "]" :: rest) = Some (map finding_json (i :: l), rest).
Proof.
  induction l as [|j l IH]; intros i n rest.
  - replace (n + 10 + length (@nil finding)) with (S (n + 9)) by (cbn; lia). cbn [findings_words elements]. now rewrite value_finding.
  - replace (n + 10 + length (j :: l)) with (S (n + 10 + length l)) by (cbn; lia). change (findings_words (i :: j :: l)) with (finding_words i ++ TP "," :: findings_words (j :: l))%list.
    rewrite <- app_assoc. cbn [elements]. replace (n + 10 + length l) with (n + 1 + length l + 9) at 1 by lia. rewrite value_finding. cbn [List.app].
    rewrite (IH j n rest). reflexivity.
Qed.
Lemma words_many l : 17 * length l <= length (findings_words l).
Proof.
  induction l as [|i l IH]; [reflexivity|]. destruct l as [|j l]; [now apply Nat.leb_le|]. change (findings_words (i :: j :: l)) with (finding_words i ++ TP "," :: findings_words (j :: l))%list.
  rewrite app_length. cbn [length] in *. change (length (finding_words i)) with 17. lia.
Qed.
Lemma json_back file r : read_json (print_json file r) = Some (report_json file r).
Proof.
  unfold read_json. rewrite (steps_all _ _ (steps_report file r)). pose proof (words_many r) as M.
  assert (exists n, 2 * length (report_words file r) = 20 + (n + 10 + length (tl r))) as (n & ->).
  { unfold report_words. rewrite !app_length. cbn [length]. exists (2 * (20 + (length (findings_words r) + 2)) - 30 - length (tl r)). destruct r; cbn [tl length] in *; lia. }
  unfold report_words, report_json. destruct r as [|i l].
  - reflexivity.
  - cbn [tl]. pose proof (value_findings l i (n + 13) [TP "}"]) as V.
    assert (VV : value (S (n + 13 + 10 + length l)) (TP "[" :: (findings_words (i :: l) ++ [TP "]"; TP "}"])) = Some (JArr (map finding_json (i :: l)), [TP "}"])).
    { cbn [value]. assert (Z : exists t x, (findings_words (i :: l) ++ [TP "]"; TP "}"])%list = TP "{" :: t :: x) by (destruct l; repeat eexists). destruct Z as (t & x & Z).
      rewrite Z in V |- *. rewrite V. reflexivity. }
    set (W := (findings_words (i :: l) ++ [TP "]"; TP "}"])%list) in *.
    replace (20 + (n + 10 + length l)) with (6 + S (n + 13 + 10 + length l)) by lia.
    remember (S (n + 13 + 10 + length l)) as q eqn:Q. clearbody W. generalize (how_many Error (i :: l)), (how_many Warning (i :: l)). intros x y.
    cbn [List.app plus value members]. destruct (Nat.eqb x 0); rewrite VV; reflexivity.
Qed.
