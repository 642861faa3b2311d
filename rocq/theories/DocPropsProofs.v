From Coq Require Import String Ascii List Bool Arith NArith Lia.
From Verif Require Import Str StrRefl EscapeModel EscapeProofs XmlSpec XmlProofs XmlTpl OpcSpec GenProofs TplRead XmlPath PathRead DocPropsModel DocPropsSpec.
Import ListNotations.
Open Scope string_scope.

(** ** Time stamps *)
Fixpoint each (f : N -> bool) (k : nat) (n : N) : bool := match k with O => true | S k => f n && each f k (n + 1)%N end.
Lemma each_spec f k : forall n, each f k n = true -> forall m, (n <= m < n + N.of_nat k)%N -> f m = true.
Proof.
  induction k as [|k IH]; intros n H m L; [lia|]. cbn [each] in H. apply andb_true_iff in H. destruct H as [A B].
  destruct (N.eq_dec n m) as [<-|E]; [exact A|]. apply (IH _ B). lia.
Qed.
Definition two_ok (n : N) : bool :=
  match pad 2 n with
  | String a (String b "") => match digit a, digit b with Some x, Some y => (10 * x + y =? n)%N | _, _ => false end
  | _ => false
  end.
Definition four_ok (n : N) : bool :=
  match pad 4 n with
  | String a (String b (String c (String d ""))) =>
      match digit a, digit b, digit c, digit d with Some x, Some y, Some z, Some w => (1000 * x + 100 * y + 10 * z + w =? n)%N | _, _, _, _ => false end
  | _ => false
  end.
Lemma two_all n : (n < 100)%N -> two_ok n = true.
Proof. intros H. apply (each_spec two_ok 100 0); [vm_compute; reflexivity|lia]. Qed.
Lemma four_all n : (n < 10000)%N -> four_ok n = true.
Proof. intros H. apply (each_spec four_ok (100 * 100) 0); [vm_compute; reflexivity|lia]. Qed.

Lemma read2 n r : (n < 100)%N -> number 2 0 (pad 2 n ++ r) = Some (n, r).
Proof.
  intros H. pose proof (two_all n H) as T. unfold two_ok in T. destruct (pad 2 n) as [|a [|b [|]]]; try discriminate.
  cbn [append number]. destruct (digit a) as [x|]; [|discriminate]. destruct (digit b) as [y|]; [|discriminate].
  apply N.eqb_eq in T. do 2 f_equal. lia.
Qed.
Lemma read4 n r : (n < 10000)%N -> number 4 0 (pad 4 n ++ r) = Some (n, r).
Proof.
  intros H. pose proof (four_all n H) as T. unfold four_ok in T. destruct (pad 4 n) as [|a [|b [|c [|d [|]]]]]; try discriminate.
  cbn [append number]. destruct (digit a) as [x|]; [|discriminate]. destruct (digit b) as [y|]; [|discriminate].
  destruct (digit c) as [z|]; [|discriminate]. destruct (digit d) as [w|]; [|discriminate].
  apply N.eqb_eq in T. do 2 f_equal. lia.
Qed.
Definition fields (secs : N) : stamp :=
  let days := (secs / 86400)%N in let r := (days mod 365)%N in
  Stamp (1970 + days / 365) (1 + r / 30) (1 + r mod 30) (secs mod 86400 / 3600) (secs mod 86400 mod 3600 / 60) (secs mod 86400 mod 60).
Lemma sep_app c r : sep c (String c "" ++ r) = Some r.
Proof. cbn. now rewrite Ascii.eqb_refl. Qed.
Lemma div_lt a b c : (0 < b -> a < b * c -> a / b < c)%N.
Proof. intros H L. apply N.div_lt_upper_bound; lia. Qed.
Lemma stamp_reads secs : (secs < 253234080000)%N -> read_stamp (timestamp secs) = Some (fields secs).
Proof.
  intros H. unfold timestamp, read_stamp. cbv zeta.
  assert (D : (secs / 86400 < 2930950)%N) by (apply div_lt; lia).
  pose proof (div_lt (secs / 86400) 365 8030 ltac:(lia) ltac:(lia)) as D1.
  pose proof (N.mod_lt (secs / 86400) 365 ltac:(lia)) as D2.
  pose proof (div_lt ((secs / 86400) mod 365) 30 13 ltac:(lia) ltac:(lia)) as D3.
  pose proof (N.mod_lt ((secs / 86400) mod 365) 30 ltac:(lia)) as D4.
  pose proof (N.mod_lt secs 86400 ltac:(lia)) as S1.
  pose proof (div_lt (secs mod 86400) 3600 24 ltac:(lia) ltac:(lia)) as S2.
  pose proof (N.mod_lt (secs mod 86400) 3600 ltac:(lia)) as S3.
  pose proof (div_lt ((secs mod 86400) mod 3600) 60 60 ltac:(lia) ltac:(lia)) as S4.
  pose proof (N.mod_lt (secs mod 86400) 60 ltac:(lia)) as S5.
  rewrite read4 by lia. rewrite (sep_app "-"). rewrite read2 by lia. rewrite (sep_app "-"). rewrite read2 by lia. rewrite (sep_app "T").
  rewrite read2 by lia. rewrite (sep_app ":"). rewrite read2 by lia. rewrite (sep_app ":"). rewrite read2 by lia. reflexivity.
Qed.
Lemma fields_time secs : let t := fields secs in valid_time t /\ (hour t * 3600 + minute t * 60 + second t = secs mod 86400)%N.
Proof.
  unfold fields, valid_time. cbn [hour minute second].
  pose proof (N.mod_lt secs 86400 ltac:(lia)) as S1. set (s := (secs mod 86400)%N) in *. clearbody s.
  pose proof (div_lt s 3600 24 ltac:(lia) ltac:(lia)). pose proof (N.mod_lt s 3600 ltac:(lia)). pose proof (div_lt (s mod 3600) 60 60 ltac:(lia) ltac:(lia)).
  pose proof (N.mod_lt s 60 ltac:(lia)). split; [lia|].
  pose proof (N.div_mod s 3600 ltac:(lia)) as A. pose proof (N.div_mod (s mod 3600) 60 ltac:(lia)) as B.
  assert (C : ((s mod 3600) mod 60 = s mod 60)%N).
  { rewrite A at 2. replace (3600 * (s / 3600) + s mod 3600)%N with (s mod 3600 + (60 * (s / 3600)) * 60)%N by lia. now rewrite N.mod_add. }
  lia.
Qed.
Lemma fields_date secs : let t := fields secs in let r := ((secs / 86400) mod 365)%N in
  valid_date t <-> ((r < 360)%N /\ (r < 58 \/ (r = 58 /\ leap (year t) = true) \/ 60 <= r)%N).
Proof.
  cbv zeta. unfold valid_date. unfold fields at 1 2 3 4 5 6. cbn [year month day].
  pose proof (N.mod_lt (secs / 86400) 365 ltac:(lia)) as D2. set (r := ((secs / 86400) mod 365)%N) in *. clearbody r.
  assert (Y : year (fields secs) = (1970 + secs / 86400 / 365)%N) by reflexivity. rewrite Y. clear Y. set (y := (1970 + secs / 86400 / 365)%N). clearbody y.
  pose proof (N.div_mod r 30 ltac:(lia)) as A. pose proof (N.mod_lt r 30 ltac:(lia)) as B. set (q := (r / 30)%N) in *. set (m := (r mod 30)%N) in *. clearbody q m. remember (1 + m)%N as d eqn:Ed.
  assert (Q : (q <= 12)%N) by lia.
  assert (C : (q = 0 \/ q = 1 \/ q = 2 \/ q = 3 \/ q = 4 \/ q = 5 \/ q = 6 \/ q = 7 \/ q = 8 \/ q = 9 \/ q = 10 \/ q = 11 \/ q = 12)%N) by lia.
  destruct C as [->|[->|[->|[->|[->|[->|[->|[->|[->|[->|[->|[->| ->]]]]]]]]]]]]; cbn [month_length N.add Pos.add Pos.succ];
    try (split; intros; lia).
  destruct (leap y); split; intros (H1 & H2).
  - split; [lia|]. destruct (N.eq_dec m 28); [right; left; split; [lia|reflexivity]|left; lia].
  - destruct H2 as [H2|[[H2 _]|H2]]; lia.
  - split; [lia|]. left; lia.
  - destruct H2 as [H2|[[_ H2]|H2]]; [lia|discriminate|lia].
Qed.

(** ** app.xml *)
Definition leafT (n : string) (p : list piece) : tpl := TE n [] [TT p].
Definition headingT (n : nat) : tpl :=
  TE "HeadingPairs" [] [TE "vt:vector" [("size", [Lit "2"]); ("baseType", [Lit "variant"])]
    [TE "vt:variant" [] [leafT "vt:lpstr" [Lit "Slide Titles"]]; TE "vt:variant" [] [leafT "vt:i4" [Lit (decn n)]]]].
Definition titlesT (l : list string) : tpl :=
  TE "TitlesOfParts" [] [TE "vt:vector" [("size", [Lit (decn (length l))]); ("baseType", [Lit "lpstr"])] (map (fun t => leafT "vt:lpstr" [Esc t]) l)].
Definition appT (slides notes : nat) (l : list string) : list tpl :=
  [nlT; leafT "TotalTime" [Lit "0"]; nlT; leafT "Words" [Lit "0"]; nlT; leafT "Application" [Lit "pptx-rs"]; nlT;
   leafT "PresentationFormat" [Lit "On-screen Show (4:3)"]; nlT; leafT "Paragraphs" [Lit "0"]; nlT; leafT "Slides" [Lit (decn slides)]; nlT;
   leafT "Notes" [Lit (decn notes)]; nlT; leafT "HiddenSlides" [Lit "0"]; nlT; leafT "MMClips" [Lit "0"]; nlT; leafT "ScaleCrop" [Lit "false"]; nlT;
   headingT (length l); titlesT l; nlT; leafT "LinksUpToDate" [Lit "false"]; nlT; leafT "SharedDoc" [Lit "false"]; nlT;
   leafT "HyperlinksChanged" [Lit "false"]; nlT; leafT "AppVersion" [Lit "1.0000"]; nlT].
Definition app_attrs : list (string * list piece) :=
  [("xmlns", [Lit "http://schemas.openxmlformats.org/officeDocument/2006/extended-properties"]);
   ("xmlns:vt", [Lit "http://schemas.openxmlformats.org/officeDocument/2006/docPropsVTypes"])].
Lemma headings_str l : heading_pairs_and_titles l = tstr (headingT (length l)) ++ tstr (titlesT l).
Proof.
  unfold heading_pairs_and_titles, headingT, titlesT, leafT. cbv zeta.
  rewrite (sconcat_ext _ (fun t => tstr (TE "vt:lpstr" [] [TT [Esc t]]))) by (intros t _; rewrite props_xml_escape_eq; tstr_eq).
  cbn [tstr map]. rewrite map_map. cbn [tstr map]. set (X := sconcat (map _ l)). clearbody X. tstr_eq.
Qed.
Lemma app_str slides notes titles : app_props_xml slides notes titles = decl ++ nl ++ tstr (TE "Properties" app_attrs (appT slides notes (fit_titles slides titles))).
Proof.
  unfold app_props_xml. rewrite headings_str. set (l := fit_titles slides titles). clearbody l.
  unfold appT, app_attrs, leafT, nlT. cbn [tstr map]. fold (tstr (headingT (length l))) (tstr (titlesT l)).
  set (A := tstr (headingT (length l))). set (B := tstr (titlesT l)). clearbody A B. tstr_eq.
Qed.
Lemma leaf_tok n p : is_name n = true -> forallb pt_ok p = true -> tok (leafT n p).
Proof. intros A B. unfold leafT. apply tok_TE; [exact A|reflexivity|]. now split. Qed.
Lemma app_tok slides notes l : Forall (fun t => text_ok t = true) l -> tok (TE "Properties" app_attrs (appT slides notes l)).
Proof.
  intros F. apply tok_TE; [reflexivity|vm_compute; reflexivity|]. unfold appT.
  assert (H : tok (headingT (length l))).
  { unfold headingT, leafT. toks_solve. }
  assert (T : tok (titlesT l)).
  { unfold titlesT. apply tok_TE; [reflexivity|reflexivity|]. cbn [toks]. split; [|exact I]. apply tok_TE; [reflexivity|unfold tattrs_ok; apply andb_true_iff; split; [vm_compute; reflexivity|pieces_ok]|].
    apply toks_map. intros t Ht. apply leaf_tok; [reflexivity|]. cbn [forallb pt_ok]. rewrite Forall_forall in F. now rewrite (F t Ht). }
  cbn [toks]. repeat (split; [first [exact nlT_tok | exact H | exact T | apply leaf_tok; [reflexivity|pieces_ok]]|]). exact I.
Qed.

Definition titled (slides notes : nat) (x : node) (titles : list string) : Prop :=
  texts (at_path ["Slides"] x) = [decn slides] /\
  texts (at_path ["Notes"] x) = [decn notes] /\
  texts (at_path ["HeadingPairs"; "vt:vector"; "vt:variant"; "vt:i4"] x) = [decn slides] /\
  map (attr "size") (at_path ["TitlesOfParts"; "vt:vector"] x) = [decn slides] /\
  texts (at_path ["TitlesOfParts"; "vt:vector"; "vt:lpstr"] x) = titles.

Lemma fit_length slides titles : length (fit_titles slides titles) = slides.
Proof.
  unfold fit_titles. destruct (Nat.leb_spec slides (length titles)); [rewrite firstn_length; lia|]. rewrite app_length, map_length, seq_length. lia.
Qed.
Lemma fit_nth slides titles i : i < slides -> nth_error (fit_titles slides titles) i =
  Some (match nth_error titles i with Some t => t | None => "Slide " ++ decn (i + 1) end).
Proof.
  intros H. unfold fit_titles. destruct (Nat.leb_spec slides (length titles)).
  - destruct (nth_error titles i) eqn:E; [|apply nth_error_None in E; lia].
    rewrite <- (firstn_skipn slides titles) in E. rewrite nth_error_app1 in E by (rewrite firstn_length; lia). exact E.
  - destruct (nth_error titles i) eqn:E.
    + rewrite nth_error_app1; [exact E|]. apply nth_error_Some. congruence.
    + apply nth_error_None in E. rewrite nth_error_app2 by exact E. rewrite nth_error_map.
      rewrite (nth_error_nth' _ 0) by (rewrite seq_length; lia). rewrite seq_nth by lia. cbn [option_map]. do 4 f_equal. lia.
Qed.
Lemma digit_text c : is_digit c = true -> xml_char c && negb (Ascii.eqb c c_cr) = true.
Proof. destruct c as [[] [] [] [] [] [] [] []]; vm_compute; auto. Qed.
Lemma text_ok_digits s : sforall is_digit s = true -> text_ok s = true.
Proof.
  induction s as [|c s IH]; [reflexivity|]. cbn [sforall text_ok]. rewrite andb_true_iff. intros [A B]. now rewrite (digit_text c A), IH.
Qed.
Lemma text_ok_app s t : text_ok (s ++ t) = text_ok s && text_ok t.
Proof. induction s as [|c s IH]; [reflexivity|]. cbn [append text_ok]. now rewrite IH, !andb_assoc. Qed.
Lemma decn_text n : text_ok (decn n) = true.
Proof. apply text_ok_digits. unfold decn. apply dec_digits. Qed.
Lemma fit_ok slides titles : Forall (fun t => text_ok t = true) titles -> Forall (fun t => text_ok t = true) (fit_titles slides titles).
Proof.
  intros F. unfold fit_titles. destruct (Nat.leb _ _).
  - rewrite <- (firstn_skipn slides titles) in F. now apply Forall_app in F.
  - apply Forall_app. split; [exact F|]. apply Forall_forall. intros t Ht. apply in_map_iff in Ht. destruct Ht as (i & <- & _).
    rewrite text_ok_app, decn_text. reflexivity.
Qed.

Lemma app_reads slides notes titles : Forall (fun t => text_ok t = true) titles ->
  exists x l, xml_read (app_props_xml slides notes titles) = Some x /\ titled slides notes x l /\ length l = slides /\
    forall i, i < slides -> nth_error l i = Some (match nth_error titles i with Some t => t | None => "Slide " ++ decn (i + 1) end).
Proof.
  intros F. exists (tnode (TE "Properties" app_attrs (appT slides notes (fit_titles slides titles)))), (fit_titles slides titles).
  split; [|split; [|split; [apply fit_length|intros i; apply fit_nth]]].
  { rewrite app_str. apply (tpl_read nl); [reflexivity|reflexivity|]. now apply app_tok, fit_ok. }
  pose proof (fit_length slides titles) as L. set (l := fit_titles slides titles) in *. clearbody l.
  unfold titled, texts, appT, titlesT, headingT, leafT, nlT. rewrite L.
  assert (V : forall s, vals [Lit s] = s) by (intros s; cbn; apply sapp_nil_r).
  split; [|split; [|split; [|split]]].
  - pread. rewrite text_leaf. now rewrite V.
  - pread. rewrite text_leaf. now rewrite V.
  - pread. rewrite text_leaf. now rewrite V.
  - pread. cbn. now rewrite sapp_nil_r.
  - pstep. pstep. cbn [at_path]. rewrite flat_map_self, named_children. cbn [tbody].
    rewrite named_all by reflexivity. rewrite map_map.
    rewrite (map_ext _ (fun t => t)); [apply map_id|]. intros t. rewrite text_leaf. cbn. apply sapp_nil_r.
Qed.

(** Titles of slides. *)
Lemma titles_from_length k l : length (slide_titles_from k l) = length l.
Proof. revert k; induction l as [|t l IH]; intros k; cbn; [reflexivity|]. now rewrite IH. Qed.
Lemma titles_from_nth k l i : nth_error (slide_titles_from k l) i = option_map (slide_title (k + i)) (nth_error l i).
Proof.
  revert k i; induction l as [|t l IH]; intros k [|i]; cbn [slide_titles_from nth_error option_map]; try reflexivity.
  - now rewrite Nat.add_0_r.
  - rewrite IH. now rewrite Nat.add_succ_r.
Qed.
Lemma lazy_titles_eq l : collect_slide_titles_lazy (nth_error l) (length l) = collect_slide_titles (Some l) (length l).
Proof.
  unfold collect_slide_titles_lazy, collect_slide_titles.
  assert (G : forall l k, map (fun i => match nth_error l (i - k) with Some t => slide_title i t | None => "Slide " ++ decn (i + 1) end) (seq k (length l)) = slide_titles_from k l).
  { clear l. induction l as [|t l IH]; intros k; [reflexivity|]. cbn [length seq map slide_titles_from]. rewrite Nat.sub_diag. cbn [nth_error]. f_equal.
    rewrite <- IH. apply map_ext_in. intros i Hi. apply in_seq in Hi. replace (i - k) with (S (i - S k)) by lia. reflexivity. }
  rewrite <- (G l 0). apply map_ext. intros i. now rewrite Nat.sub_0_r.
Qed.

(** ** core.xml *)
Definition core_attrs : list (string * list piece) :=
  [("xmlns:cp", [Lit "http://schemas.openxmlformats.org/package/2006/metadata/core-properties"]); ("xmlns:dc", [Lit "http://purl.org/dc/elements/1.1/"]);
   ("xmlns:dcterms", [Lit "http://purl.org/dc/terms/"]); ("xmlns:dcmitype", [Lit "http://purl.org/dc/dcmitype/"]); ("xmlns:xsi", [Lit "http://www.w3.org/2001/XMLSchema-instance"])].
Definition stampT (n s : string) : tpl := TE n [("xsi:type", [Lit "dcterms:W3CDTF"])] [TT [Lit s]].
Definition coreT (now title : string) : list tpl :=
  [nlT; leafT "dc:title" [Lit title]; nlT; leafT "dc:creator" [Lit "pptx-rs"]; nlT; leafT "cp:lastModifiedBy" [Lit "pptx-rs"]; nlT; leafT "cp:revision" [Lit "1"]; nlT;
   stampT "dcterms:created" now; nlT; stampT "dcterms:modified" now; nlT].
Lemma core_str now title : core_props_xml now title = decl ++ nl ++ tstr (TE "cp:coreProperties" core_attrs (coreT now title)).
Proof. unfold core_props_xml, coreT, core_attrs, stampT, leafT, nlT. tstr_eq. Qed.
Definition plain_title (s : string) : bool := sforall plain_text s && sforall not_cr s.
Lemma zeros_digits k : sforall is_digit (zeros k) = true.
Proof. induction k; [reflexivity|]. cbn [zeros append sforall]. now rewrite IHk. Qed.
Lemma digit_plain c : is_digit c = true -> plain_text c && not_cr c = true.
Proof. destruct c as [[] [] [] [] [] [] [] []]; vm_compute; auto. Qed.
Lemma digits_plain s : sforall is_digit s = true -> plain_title s = true.
Proof.
  unfold plain_title. induction s as [|c s IH]; [reflexivity|]. cbn [sforall]. rewrite andb_true_iff. intros [A B]. specialize (IH B).
  apply andb_true_iff in IH. destruct IH as [-> ->]. pose proof (digit_plain c A) as D. apply andb_true_iff in D. destruct D as [-> ->]. reflexivity.
Qed.
Lemma plain_app s t : plain_title (s ++ t) = plain_title s && plain_title t.
Proof. unfold plain_title. rewrite !sforall_app. destruct (sforall plain_text s), (sforall plain_text t), (sforall not_cr s), (sforall not_cr t); reflexivity. Qed.
Lemma timestamp_plain secs : plain_title (timestamp secs) = true.
Proof.
  unfold timestamp. cbv zeta. assert (P : forall w n, plain_title (pad w n) = true).
  { intros w n. apply digits_plain. unfold pad. rewrite sforall_app, zeros_digits. apply dec_digits. }
  rewrite !plain_app, !P. reflexivity.
Qed.
Lemma core_reads secs title : plain_title title = true ->
  exists x, xml_read (core_props_xml (timestamp secs) title) = Some x /\
    texts (at_path ["dc:title"] x) = [title] /\
    texts (at_path ["dcterms:created"] x) = [timestamp secs] /\ texts (at_path ["dcterms:modified"] x) = [timestamp secs].
Proof.
  intros P. pose proof (timestamp_plain secs) as Q. set (now := timestamp secs) in *. clearbody now.
  exists (tnode (TE "cp:coreProperties" core_attrs (coreT now title))).
  assert (V : forall s, vals [Lit s] = s) by (intros s; cbn; apply sapp_nil_r).
  split; [|split; [|split]].
  - rewrite core_str. apply (tpl_read nl); [reflexivity|reflexivity|]. apply tok_TE; [reflexivity|vm_compute; reflexivity|]. unfold coreT, stampT.
    assert (T : forall n, is_name n = true -> tok (TE n [("xsi:type", [Lit "dcterms:W3CDTF"])] [TT [Lit now]])).
    { intros n Hn. apply tok_TE; [exact Hn|vm_compute; reflexivity|]. cbn [toks tok forallb pt_ok]. unfold plain_title in Q. rewrite Q. now split. }
    cbn [toks]. repeat (split; [first [exact nlT_tok | apply T; reflexivity | apply leaf_tok; [reflexivity|]; cbn [forallb pt_ok]; first [vm_compute; reflexivity | unfold plain_title in P; now rewrite P]]|]). exact I.
  - unfold texts, coreT, stampT, leafT, nlT. pread. rewrite text_leaf. now rewrite V.
  - unfold texts, coreT, stampT, leafT, nlT. pread. rewrite text_leaf. now rewrite V.
  - unfold texts, coreT, stampT, leafT, nlT. pread. rewrite text_leaf. now rewrite V.
Qed.
Lemma fields_order a b : (a < b)%N -> before (fields a) (fields b).
Proof.
  intros L. pose proof (fields_time a) as [_ TA]. pose proof (fields_time b) as [_ TB]. pose proof (fields_time a) as [VA _]. pose proof (fields_time b) as [VB _].
  unfold valid_time in VA, VB. unfold before. cbn [lex].
  assert (F : forall s, (s / 86400 = 365 * (year (fields s) - 1970) + 30 * (month (fields s) - 1) + (day (fields s) - 1) /\ 1970 <= year (fields s) /\ 1 <= month (fields s) /\ 1 <= day (fields s) <= 30
    /\ 30 * (month (fields s) - 1) + (day (fields s) - 1) < 365)%N).
  { intros s. unfold fields. cbv zeta. cbn [year month day]. set (d := (s / 86400)%N). clearbody d. pose proof (N.div_mod d 365 ltac:(lia)). pose proof (N.mod_lt d 365 ltac:(lia)).
    pose proof (N.div_mod (d mod 365) 30 ltac:(lia)). pose proof (N.mod_lt (d mod 365) 30 ltac:(lia)). set (q := (d / 365)%N) in *. set (r := (d mod 365)%N) in *. clearbody q r. set (u := (r / 30)%N) in *. set (v := (r mod 30)%N) in *. clearbody u v. lia. }
  pose proof (F a) as FA. pose proof (F b) as FB. pose proof (N.div_mod a 86400 ltac:(lia)) as DA. pose proof (N.div_mod b 86400 ltac:(lia)) as DB.
  set (ta := fields a) in *. set (tb := fields b) in *. clearbody ta tb. rewrite <- TA in DA. rewrite <- TB in DB. clear TA TB F.
  destruct FA as (EA & FA). destruct FB as (EB & FB). rewrite EA in DA. rewrite EB in DB. clear EA EB.
  destruct ta as [y m d h i s], tb as [y' m' d' h' i' s']. cbn [year month day hour minute second] in *.
  assert (Y : (y <= y')%N) by lia. destruct (N.eq_dec y y') as [<-|]; [right; split; [reflexivity|]|left; lia].
  assert (M : (m <= m')%N) by lia. destruct (N.eq_dec m m') as [<-|]; [right; split; [reflexivity|]|left; lia].
  assert (D : (d <= d')%N) by lia. destruct (N.eq_dec d d') as [<-|]; [right; split; [reflexivity|]|left; lia].
  assert (H : (h <= h')%N) by lia. destruct (N.eq_dec h h') as [<-|]; [right; split; [reflexivity|]|left; lia].
  assert (I : (i <= i')%N) by lia. destruct (N.eq_dec i i') as [<-|]; [right; split; [reflexivity|]|left; lia].
  left. lia.
Qed.
Lemma year_days_bounds k : forall y, (365 * N.of_nat k <= year_days k y <= 366 * N.of_nat k)%N.
Proof. induction k as [|k IH]; intros y; [cbn; lia|]. cbn [year_days]. specialize (IH (y + 1)%N). destruct (leap y); lia. Qed.
Lemma fields_year secs k : (k < 365)%nat -> (year_days k 1970 <= secs / 86400 < year_days (S k) 1970)%N ->
  (year (fields secs) = 1970 + N.of_nat k \/ year (fields secs) = 1970 + N.of_nat k + 1)%N.
Proof.
  intros K [A B]. unfold fields. cbn [year]. set (d := (secs / 86400)%N) in *. clearbody d. pose proof (year_days_bounds k 1970). pose proof (year_days_bounds (S k) 1970).
  pose proof (N.div_mod d 365 ltac:(lia)). pose proof (N.mod_lt d 365 ltac:(lia)). set (q := (d / 365)%N) in *. set (m := (d mod 365)%N) in *. clearbody q m. set (u := year_days k 1970) in *. set (v := year_days (S k) 1970) in *. clearbody u v. lia.
Qed.
