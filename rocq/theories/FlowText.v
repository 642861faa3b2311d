(** Reading one line of a flowchart. *)
From Coq Require Import String Ascii List Bool Arith NArith Permutation Lia.
From Verif Require Import Str Num ColorModel TableModel ShapeModel ConnectorModel ValidSpec ValidProofs FlowModel FlowSpec.
Import ListNotations.
Open Scope nat_scope.
Open Scope string_scope.

(** ** Texts without blanks around them *)
Definition solid (s : string) : Prop := (exists c x, s = String c x /\ is_ws c = false) /\ (exists c x, s = x ++ s1 c /\ is_ws c = false).
Lemma trim_end_solid x c : is_ws c = false -> trim_end_by is_ws (x ++ s1 c) = x ++ s1 c.
Proof. intros C. unfold trim_end_by. rewrite srev_sapp. cbn. rewrite C. rewrite <- (srev_involutive (x ++ s1 c)), srev_sapp. reflexivity. Qed.
Lemma trim_solid s : solid s -> trim s = s.
Proof.
  intros [(c & x & E & C) (d & y & F & D)]. unfold trim. assert (T : trim_start_by is_ws s = s) by (rewrite E; cbn; now rewrite C).
  rewrite T, F. now apply trim_end_solid.
Qed.
Lemma trim_before s : trim (" " ++ s) = trim s.
Proof. reflexivity. Qed.
Lemma trim_after s : solid s -> trim (s ++ " ") = s.
Proof.
  intros H. pose proof H as [(c & x & E & C) _]. pose proof (trim_solid s H) as T. unfold trim in *.
  assert (A : trim_start_by is_ws (s ++ " ") = s ++ " ") by (rewrite E; cbn; now rewrite C).
  assert (B : trim_start_by is_ws s = s) by (rewrite E; cbn; now rewrite C).
  rewrite A. rewrite B in T. unfold trim_end_by in *. rewrite srev_sapp. cbn. exact T.
Qed.

(** ** Searching *)
Notation free c x := (sforall (fun d => negb (Ascii.eqb c d)) x = true).
Lemma split_skip c p x s : free c x -> split_once (String c p) (x ++ s) =
  match split_once (String c p) s with Some (u, v) => Some (x ++ u, v) | None => None end.
Proof.
  induction x as [|d x IH]; intros F; [cbn [append]; destruct (split_once _ s) as [[u v]|]; reflexivity|].
  cbn [sforall] in F. apply andb_prop in F as [D F]. specialize (IH F). cbn [append]. remember (x ++ s) as w. cbn [split_once strip_prefix].
  apply negb_true_iff in D. rewrite D, IH. destruct (split_once _ s) as [[u v]|]; reflexivity.
Qed.
Lemma split_here p s : split_once p (p ++ s) = Some ("", s).
Proof. destruct p; [destruct s; reflexivity|]. cbn [append split_once]. change (String a (p ++ s)) with (String a p ++ s). now rewrite strip_prefix_app. Qed.
Lemma split_free c p x : free c x -> split_once (String c p) x = None.
Proof. intros F. rewrite <- (sapp_nil_r x), split_skip by exact F. reflexivity. Qed.
Lemma split_after c p x s : free c x -> split_once (String c p) (x ++ String c p ++ s) = Some (x, s).
Proof. intros F. rewrite split_skip, split_here by exact F. now rewrite sapp_nil_r. Qed.
Lemma split_end c p x : free c x -> split_once (String c p) (x ++ String c p) = Some (x, "").
Proof. intros F. rewrite <- (sapp_nil_r (String c p)) at 2. now apply split_after. Qed.
(** A needle with a character that a text lacks is not in it. *)
Lemma free_absent c p q x : free c x -> absent (p ++ String c q) x.
Proof.
  intros F a b E. rewrite E, !sforall_app in F. apply andb_prop in F as [_ F]. apply andb_prop in F as [F _]. apply andb_prop in F as [_ F].
  cbn in F. rewrite Ascii.eqb_refl in F. discriminate.
Qed.
Lemma sapp_split (a b c d : string) : a ++ b = c ++ d -> (exists u, a = c ++ u /\ d = u ++ b) \/ (exists u, c = a ++ u /\ b = u ++ d).
Proof.
  revert c. induction a as [|x a IH]; intros c E; [right; exists c; auto|]. destruct c as [|y c]; [left; exists (String x a); auto|].
  cbn in E. injection E as -> E. destruct (IH _ E) as [(u & -> & ->)|(u & -> & ->)]; [left|right]; exists u; auto.
Qed.
(** After a character that is not in the needle, the needle is found first. *)
Lemma split_sep p a c b : absent p a -> sforall (fun d => negb (Ascii.eqb c d)) p = true -> split_once p (a ++ String c (p ++ b)) = Some (a ++ s1 c, b).
Proof.
  intros A C. induction a as [|x a IH].
  - cbn [append]. destruct p as [|y p]; [exfalso; exact (A "" "" eq_refl)|]. pose proof (split_here (String y p) b) as H. remember (String y p ++ b) as w.
    cbn [split_once strip_prefix]. cbn [sforall] in C. apply andb_prop in C as [C _]. apply negb_true_iff in C. rewrite Ascii.eqb_sym in C. rewrite C, H. reflexivity.
  - assert (A' : absent p a) by (intros u v E; apply (A (String x u) v); cbn; now rewrite E). specialize (IH A'). cbn [append]. remember (a ++ String c (p ++ b)) as w eqn:W.
    cbn [split_once]. destruct (strip_prefix p (String x w)) as [r|] eqn:F; [|now rewrite IH].
    exfalso. apply strip_prefix_iff in F. rewrite W in F. change (String x (a ++ String c (p ++ b))) with (String x a ++ String c (p ++ b)) in F.
    destruct (sapp_split _ _ _ _ F) as [(u & E & _)|(u & E & G)]; [exact (A "" u E)|]. destruct u as [|y u].
    + rewrite sapp_nil_r in E. subst p. apply (A "" ""). now rewrite sapp_nil_r.
    + cbn in G. injection G as <- _. rewrite E, sforall_app in C. apply andb_prop in C as [_ C]. cbn in C. rewrite Ascii.eqb_refl in C. discriminate.
Qed.
(** With one ">" in a text, a needle ending in ">" is there only if what comes before ends as the needle does. *)
Lemma one_gt q u v : free ">" q -> free ">" u -> free ">" v -> absent (q ++ ">") (u ++ ">" ++ v) \/ exists w, u = w ++ q.
Proof.
  intros Q U V. destruct (split_once (q ++ ">") (u ++ ">" ++ v)) as [[a b]|] eqn:E; [right|left; now apply split_once_none].
  apply split_once_some in E. rewrite sapp_assoc in E.
  destruct (sapp_split u (">" ++ v) (a ++ q) (">" ++ b)) as [(w & F & G)|(w & F & G)].
  - rewrite E, !sapp_assoc. reflexivity.
  - destruct w as [|y w]; [exists a; now rewrite sapp_nil_r in F|]. cbn in G. injection G as <- _. rewrite F, sforall_app in U. apply andb_prop in U as [_ U]. discriminate.
  - destruct w as [|y w]; [exists a; now rewrite sapp_nil_r in F|]. cbn in G. injection G as <- G. rewrite G, sforall_app in V. apply andb_prop in V as [_ V]. discriminate.
Qed.
Lemma app_s1_inj a b (c d : ascii) : a ++ s1 c = b ++ s1 d -> a = b /\ c = d.
Proof.
  intros E. apply (f_equal srev) in E. rewrite !srev_sapp in E. cbn in E. injection E as -> E. split; [|reflexivity].
  now rewrite <- (srev_involutive a), E, srev_involutive.
Qed.

(** ** Names and captions *)
Lemma caption_free t c : caption_ok t = true -> special c = true -> free c t.
Proof.
  unfold caption_ok. intros H C. apply andb_prop in H as [H _]. revert H. apply sforall_weaken. intros d D. apply negb_true_iff in D. apply negb_true_iff.
  destruct (Ascii.eqb_spec c d); [subst; congruence|reflexivity].
Qed.
Lemma caption_dashes t : caption_ok t = true -> absent "---" t.
Proof. unfold caption_ok. intros H. apply andb_prop in H as [_ H]. apply negb_true_iff in H. unfold contains in H. destruct (split_once "---" t) eqn:E; [discriminate|]. now apply split_once_none. Qed.
Section Line.
Variable wordy : string -> bool.
Lemma id_parts i : id_ok wordy i = true -> wordy i = true /\ i <> "" /\ i <> "end" /\ starts_with "subgraph" i = false
  /\ sforall (fun c => negb (special c) && negb (is_ws c) && negb (Ascii.eqb c "%") && negb (Ascii.eqb c "-")) i = true.
Proof.
  unfold id_ok. intros H. repeat (apply andb_prop in H as [H ?]). repeat (split; [first [assumption|now apply negb_true_iff; assumption|idtac]|]); auto.
  - intros ->. discriminate.
  - intros ->. discriminate.
Qed.
Lemma id_free i c : id_ok wordy i = true -> special c || is_ws c || Ascii.eqb c "%" || Ascii.eqb c "-" = true -> free c i.
Proof.
  intros H C. apply id_parts in H as (_ & _ & _ & _ & H). revert H. apply sforall_weaken. intros d D. apply negb_true_iff.
  destruct (Ascii.eqb_spec c d); [subst|reflexivity]. destruct (special d), (is_ws d), (Ascii.eqb d "%"), (Ascii.eqb d "-"); discriminate.
Qed.
Lemma id_solid i : id_ok wordy i = true -> solid i.
Proof.
  intros H. apply id_parts in H as (_ & N & _ & _ & H). assert (W : sforall (fun c => negb (is_ws c)) i = true).
  { revert H. apply sforall_weaken. intros d D. destruct (is_ws d); [|reflexivity]. rewrite andb_false_r in D. discriminate. }
  split.
  - destruct i as [|c x]; [congruence|]. cbn in W. apply andb_prop in W as [W _]. exists c, x. split; [reflexivity|now apply negb_true_iff].
  - rewrite <- (srev_involutive i) in *. destruct (srev i) as [|c x] eqn:E; [now destruct N|].
    rewrite srev_cons in *. rewrite sforall_app in W. apply andb_prop in W as [_ W]. cbn in W. exists c, (srev x). split; [reflexivity|]. destruct (is_ws c); [discriminate|reflexivity].
Qed.
Lemma solid_wrap a b : solid a -> (exists c x, b = x ++ s1 c /\ is_ws c = false) -> solid (a ++ b).
Proof.
  intros [(c & x & -> & C) _] (d & y & -> & D). split; [exists c, (x ++ y ++ s1 d); auto|]. exists d, (String c x ++ y). now rewrite sapp_assoc.
Qed.
Lemma mention_solid m : mention_ok wordy m = true -> solid (mention_text m).
Proof.
  intros H. unfold mention_ok in H. apply andb_prop in H as [H _]. apply id_solid in H. unfold mention_text. destruct (m_look m) as [[k t]|]; [|now rewrite sapp_nil_r].
  apply solid_wrap; [exact H|]. destruct k; cbn [bracketed].
  - exists "]"%char, ("[" ++ t). split; [now rewrite sapp_assoc|reflexivity].
  - exists ")"%char, ("(" ++ t). split; [now rewrite sapp_assoc|reflexivity].
  - exists ")"%char, ("([" ++ t ++ "]"). split; [now rewrite !sapp_assoc|reflexivity].
  - exists "}"%char, ("{" ++ t). split; [now rewrite sapp_assoc|reflexivity].
  - exists ")"%char, ("((" ++ t ++ ")"). split; [now rewrite !sapp_assoc|reflexivity].
  - exists "}"%char, ("{{" ++ t ++ "}"). split; [now rewrite !sapp_assoc|reflexivity].
Qed.
Definition kind_of (m : mention) : node_shape :=
  match m_look m with
  | None | Some (Box, _) => NRect | Some (Round, _) => NRound | Some (Stadium, _) => NStadium | Some (Rhombus, _) => NDiamond
  | Some (Circle, _) => NCircle | Some (Hexagon, _) => NHexagon
  end.
Definition node_of (m : mention) : node := Node (m_id m) (caption m) (kind_of m).
(** Two-character brackets do not appear where only single ones are. *)
Lemma split_pair c d x t e r : free c x -> free c t -> free c r -> sforall (fun z => negb (Ascii.eqb d z)) t = true -> Ascii.eqb d e = false ->
  split_once (String c (s1 d)) (x ++ String c (t ++ String e r)) = None \/ c = e.
Proof.
  intros X T R D E. destruct (Ascii.eqb_spec c e); [auto|]. left. rewrite split_skip by exact X.
  assert (H : split_once (String c (s1 d)) (String c (t ++ String e r)) = None); [|now rewrite H].
  assert (F : free c (t ++ String e r)). { rewrite sforall_app, T. cbn [sforall andb]. rewrite R. destruct (Ascii.eqb_spec c e); [congruence|reflexivity]. }
  pose proof (split_free c (s1 d) _ F) as G. remember (t ++ String e r) as w eqn:W. cbn [split_once strip_prefix]. rewrite Ascii.eqb_refl, G.
  unfold s1. destruct t as [|z t]; cbn [append] in W; subst w; cbn [strip_prefix]; [now rewrite E|]. cbn [sforall] in D. apply andb_prop in D as [D _]. apply negb_true_iff in D. now rewrite D.
Qed.
Lemma split_pair2 c d x t e : free c x -> free c t -> free d t -> Ascii.eqb d e = false -> Ascii.eqb c e = false ->
  split_once (String c (String d "")) (x ++ String c "" ++ t ++ String e "") = None.
Proof. intros X T D E C. destruct (split_pair c d x t e "" X T eq_refl D E) as [H|H]; [exact H|]. subst. rewrite Ascii.eqb_refl in C. discriminate. Qed.
Lemma node_read m : mention_ok wordy m = true -> parse_node_def wordy (mention_text m) = (m_id m, Some (node_of m)).
Proof.
  intros H. pose proof (mention_solid m H) as S. unfold parse_node_def. rewrite (trim_solid _ S). unfold mention_ok in H. apply andb_prop in H as [I L].
  destruct m as [i [[k t]|]]; unfold mention_text, node_of, kind_of, caption; cbn [m_id m_look] in *.
  - assert (FI : forall c, special c = true -> free c i) by (intros c C; apply id_free; [exact I|now rewrite C]).
    assert (FT : forall c, special c = true -> free c t) by (intros c C; now apply caption_free).
    assert (TI : trim i = i) by (apply trim_solid; now apply id_solid).
    unfold brackets. cbn [fold_left].
    destruct k; cbn [bracketed].
    + rewrite (split_free "(" "("), (split_free "(" "["), (split_free "{" "{") by (rewrite !sforall_app, FI, FT by reflexivity; reflexivity).
      rewrite (split_after "[" "" i (t ++ "]")) by now apply FI. rewrite (split_end "]" "" t) by now apply FT. cbn [n_id]. now rewrite TI.
    + rewrite (split_pair2 "(" "(" i t ")") by (first [now apply FI|now apply FT|reflexivity]).
      rewrite (split_pair2 "(" "[" i t ")") by (first [now apply FI|now apply FT|reflexivity]).
      rewrite (split_free "{" "{"), (split_free "[" "") by (rewrite !sforall_app, FI, FT by reflexivity; reflexivity).
      rewrite (split_after "(" "" i (t ++ ")")) by now apply FI. rewrite (split_end ")" "" t) by now apply FT. cbn [n_id]. now rewrite TI.
    + assert (E : split_once "((" (i ++ "([" ++ t ++ "])") = None).
      { rewrite split_skip by now apply FI. assert (split_once "((" ("([" ++ t ++ "])") = None) as ->; [|reflexivity].
        assert (F : split_once "((" ("[" ++ t ++ "])") = None) by (apply split_free; rewrite !sforall_app, FT by reflexivity; reflexivity).
        remember ("[" ++ t ++ "])") as w eqn:W. change ("([" ++ t ++ "])") with (String "(" ("[" ++ t ++ "])")). rewrite <- W. cbn [split_once strip_prefix]. rewrite F. rewrite W. reflexivity. }
      rewrite E. rewrite (split_after "(" "[" i (t ++ "])")) by now apply FI. rewrite (split_end "]" ")" t) by now apply FT. cbn [n_id]. now rewrite TI.
    + rewrite (split_free "(" "("), (split_free "(" "[") by (rewrite !sforall_app, FI, FT by reflexivity; reflexivity).
      rewrite (split_pair2 "{" "{" i t "}") by (first [now apply FI|now apply FT|reflexivity]).
      rewrite (split_free "[" ""), (split_free "(" "") by (rewrite !sforall_app, FI, FT by reflexivity; reflexivity).
      rewrite (split_after "{" "" i (t ++ "}")) by now apply FI. rewrite (split_end "}" "" t) by now apply FT. cbn [n_id]. now rewrite TI.
    + rewrite (split_after "(" "(" i (t ++ "))")) by now apply FI. rewrite (split_end ")" ")" t) by now apply FT. cbn [n_id]. now rewrite TI.
    + rewrite (split_free "(" "("), (split_free "(" "[") by (rewrite !sforall_app, FI, FT by reflexivity; reflexivity).
      rewrite (split_after "{" "{" i (t ++ "}}")) by now apply FI. rewrite (split_end "}" "}" t) by now apply FT. cbn [n_id]. now rewrite TI.
  - rewrite sapp_nil_r. assert (FI : forall c, special c = true -> free c i) by (intros c C; apply id_free; [exact I|now rewrite C]).
    unfold brackets. cbn [fold_left]. rewrite !split_free by now apply FI. apply id_parts in I as (W & N & _). rewrite W.
    destruct (String.eqb_spec i ""); [congruence|]. reflexivity.
Qed.

(** ** Lines *)
Lemma mention_free m c : mention_ok wordy m = true -> Ascii.eqb c ">" || Ascii.eqb c "|" = true -> free c (mention_text m).
Proof.
  intros H C. unfold mention_ok in H. apply andb_prop in H as [I L]. unfold mention_text. rewrite sforall_app.
  assert (S : special c = true) by (destruct (Ascii.eqb_spec c ">"); [subst; reflexivity|destruct (Ascii.eqb_spec c "|"); [subst; reflexivity|discriminate]]).
  rewrite (id_free _ c I) by now rewrite S. destruct (m_look m) as [[k t]|]; [|reflexivity].
  assert (D : c = ">"%char \/ c = "|"%char) by (destruct (Ascii.eqb_spec c ">"); [auto|destruct (Ascii.eqb_spec c "|"); [auto|discriminate]]).
  pose proof (caption_free t c L S) as T. destruct k; cbn [bracketed]; rewrite !sforall_app, T; destruct D as [-> | ->]; reflexivity.
Qed.
Lemma absent_app_sep p a c b : absent p a -> absent p b -> sforall (fun d => negb (Ascii.eqb c d)) p = true -> absent p (a ++ String c b).
Proof.
  intros A B C x y E. destruct (sapp_split _ _ _ _ E) as [(u & F & G)|(u & F & G)].
  - destruct (sapp_split p y u (String c b)) as [(v & H & K)|(v & H & K)]; [now rewrite <- G| |].
    + destruct v as [|z v]; [rewrite sapp_nil_r in H; subst; exact (A x "" (f_equal (append x) (eq_sym (sapp_nil_r u))))|]. cbn in K. injection K as <- _. rewrite H, sforall_app in C. apply andb_prop in C as [_ C]. cbn in C. rewrite Ascii.eqb_refl in C. discriminate.
    + rewrite H in F. exact (A x v F).
  - destruct u as [|z u]; [|cbn in G; injection G as _ G; exact (B u y G)]. cbn in G. rewrite sapp_nil_r in F. destruct p as [|z p]; [exact (B "" b eq_refl)|]. cbn in G. injection G as <- _. cbn in C. rewrite Ascii.eqb_refl in C. discriminate.
Qed.
Lemma mention_dashes m : mention_ok wordy m = true -> absent "---" (mention_text m).
Proof.
  intros H. unfold mention_ok in H. apply andb_prop in H as [I L]. unfold mention_text.
  assert (J : absent "---" (m_id m)) by (apply (free_absent "-" "" "--"); apply id_free; [exact I|reflexivity]).
  assert (Z : absent "---" "") by (intros a b E; destruct a; discriminate).
  destruct (m_look m) as [[k t]|]; [|now rewrite sapp_nil_r]. apply caption_dashes in L.
  destruct k; cbn [bracketed append]; repeat (apply absent_app_sep; [|
    first [apply (absent_app_sep "---" "" _); [exact Z| |reflexivity]|idtac]|reflexivity]); try exact J; try exact Z; try exact L.
Qed.
Lemma no_link m : mention_ok wordy m = true -> split_connection (mention_text m) = None.
Proof.
  intros H. unfold split_connection. cbn [fold_left].
  assert (G : forall p, absent (p ++ ">") (mention_text m)) by (intros p; apply free_absent; now apply mention_free).
  rewrite (proj2 (split_once_none "==>" _) (G "==")), (proj2 (split_once_none "-.->" _) (G "-.-")), (proj2 (split_once_none "-->" _) (G "--")),
    (proj2 (split_once_none "---" _) (mention_dashes m H)), (proj2 (split_once_none "->" _) (G "-")). reflexivity.
Qed.
Definition style_of (k : link) : arrow_style := match k with Pointed => SArrow | Open => SOpen | Dotted => SDotted | Thick => SThick end.
Lemma absent_snoc p a c : absent p a -> sforall (fun d => negb (Ascii.eqb c d)) p = true -> p <> "" -> absent p (a ++ s1 c).
Proof.
  intros A C N. apply absent_app_sep; [exact A| |exact C]. intros x y E. destruct x; [|discriminate]. destruct p; [congruence|discriminate].
Qed.
Lemma link_found a k r : mention_ok wordy a = true -> free ">" r -> split_connection (mention_text a ++ " " ++ link_text k ++ r) = Some (mention_text a, link_text k ++ r).
Proof.
  intros H R. pose proof (mention_free a ">" H eq_refl) as A. pose proof (mention_dashes a H) as D. pose proof (trim_after _ (mention_solid a H)) as T.
  remember (mention_text a) as u. clear Hequ H.
  assert (G : forall p, absent (p ++ ">") u) by (intros p; now apply free_absent).
  assert (NO : forall q w x, free ">" q -> free ">" w -> (forall v, u ++ " " ++ w <> v ++ q) -> x = u ++ " " ++ w ++ ">" ++ r -> split_once (q ++ ">") x = None).
  { intros q w x Q W V ->. apply split_once_none. destruct (one_gt q (u ++ " " ++ w) r Q) as [O|(v & O)]; [rewrite !sforall_app, A, W; reflexivity|exact R| |now apply V in O].
    now rewrite !sapp_assoc in O. }
  assert (NE : forall w c (q : string) d v, c <> d -> u ++ " " ++ w ++ s1 c <> v ++ q ++ s1 d).
  { intros w c q d v N E. replace (u ++ " " ++ w ++ s1 c) with ((u ++ " " ++ w) ++ s1 c) in E by now rewrite !sapp_assoc. replace (v ++ q ++ s1 d) with ((v ++ q) ++ s1 d) in E by now rewrite sapp_assoc. now apply app_s1_inj in E as [_ E]. }
  unfold split_connection. cbn [fold_left]. destruct k; cbn [link_text].
  - rewrite (NO "==" "--"); [|reflexivity|reflexivity|intros v; now apply (NE "-" "-"%char "=" "="%char)|reflexivity].
    assert (E : split_once "-.->" (u ++ " " ++ "-->" ++ r) = None).
    { apply (NO "-.-" "--"); [reflexivity|reflexivity| |reflexivity]. intros v E. replace (u ++ " " ++ "--") with ((u ++ " " ++ "-") ++ s1 "-") in E by now rewrite !sapp_assoc.
      replace (v ++ "-.-") with ((v ++ "-.") ++ s1 "-") in E by now rewrite sapp_assoc. apply app_s1_inj in E as [E _].
      replace (u ++ " " ++ "-") with ((u ++ " ") ++ s1 "-") in E by now rewrite !sapp_assoc. replace (v ++ "-.") with ((v ++ "-") ++ s1 ".") in E by now rewrite sapp_assoc. apply app_s1_inj in E as [_ E]. discriminate. }
    rewrite E. change (u ++ " " ++ "-->" ++ r) with (u ++ String " " ("-->" ++ r)). rewrite (split_sep "-->" u " " r (G "--") eq_refl). change (u ++ s1 " ") with (u ++ " "). now rewrite T.
  - assert (N : free ">" (u ++ " " ++ "---" ++ r)) by (rewrite !sforall_app, A, R; reflexivity).
    rewrite (proj2 (split_once_none "==>" _) (free_absent ">" "==" "" _ N)), (proj2 (split_once_none "-.->" _) (free_absent ">" "-.-" "" _ N)), (proj2 (split_once_none "-->" _) (free_absent ">" "--" "" _ N)).
    change (u ++ " " ++ "---" ++ r) with (u ++ String " " ("---" ++ r)). rewrite (split_sep "---" u " " r D eq_refl). change (u ++ s1 " ") with (u ++ " "). now rewrite T.
  - rewrite (NO "==" "-.-"); [|reflexivity|reflexivity|intros v; now apply (NE "-." "-"%char "=" "="%char)|reflexivity].
    change (u ++ " " ++ "-.->" ++ r) with (u ++ String " " ("-.->" ++ r)). rewrite (split_sep "-.->" u " " r (G "-.-") eq_refl). change (u ++ s1 " ") with (u ++ " "). now rewrite T.
  - change (u ++ " " ++ "==>" ++ r) with (u ++ String " " ("==>" ++ r)). rewrite (split_sep "==>" u " " r (G "==") eq_refl). change (u ++ s1 " ") with (u ++ " "). now rewrite T.
Qed.
Lemma arrow_read k r : parse_arrow_and_rest (link_text k ++ r) = (style_of k, trim r).
Proof. destruct k; reflexivity. Qed.
Definition bar (t : option string) : string := match t with Some t => "|" ++ t ++ "|" | None => "" end.
Lemma label_read t b : mention_ok wordy b = true -> match t with Some t => caption_ok t | None => true end = true ->
  extract_arrow_label (trim (bar t ++ " " ++ mention_text b)) = (mention_text b, t).
Proof.
  intros H T. pose proof (mention_solid b H) as S. pose proof (mention_free b "|" H eq_refl) as F. unfold extract_arrow_label. destruct t as [t|]; cbn [bar].
  - assert (SS : solid (("|" ++ t ++ "|") ++ " " ++ mention_text b)).
    { split; [exists "|"%char; eexists; split; reflexivity|]. destruct S as [_ (c & x & E & C)]. rewrite E. exists c, (("|" ++ t ++ "|") ++ " " ++ x). split; [now rewrite !sapp_assoc|exact C]. }
    rewrite (trim_solid _ SS), !sapp_assoc. change ("|" ++ t ++ "|" ++ " " ++ mention_text b) with ("" ++ String "|" "" ++ (t ++ "|" ++ " " ++ mention_text b)).
    rewrite (split_after "|" "" "" _ eq_refl). change ("|" ++ " " ++ mention_text b) with (String "|" "" ++ (" " ++ mention_text b)). rewrite (split_after "|" "" t) by (now apply caption_free).
    now rewrite trim_before, (trim_solid _ S).
  - change ("" ++ " " ++ mention_text b) with (" " ++ mention_text b). rewrite trim_before, (trim_solid _ S). now rewrite (split_free "|" "" _ F).
Qed.
Definition edge_of (j : joined) : edge := Edge (j_from j) (j_to j) (j_label j) (style_of (j_kind j)).
(** What one statement does to the state. *)
Definition noted (m : mention) (p : pstate) : pstate := note_node (m_id m, Some (node_of m)) p.
Definition told (p : pstate) (s : stmt) : pstate :=
  match s with
  | Only m => noted m p
  | Join a k t b => let p := noted b (noted a p) in PState (p_nodes p) (p_edges p ++ [Edge (m_id a) (m_id b) t (style_of k)])%list (p_groups p) (p_current p)
  end.
Lemma first_char m r : mention_ok wordy m = true -> String.eqb (mention_text m ++ r) "" = false /\ starts_with "%%" (mention_text m ++ r) = false.
Proof.
  intros H. unfold mention_ok in H. apply andb_prop in H as [I _]. pose proof (id_free _ "%" I eq_refl) as P. apply id_parts in I as (_ & N & _). unfold mention_text. destruct (m_id m) as [|c i]; [congruence|].
  split; [reflexivity|]. cbn [append starts_with]. cbn [sforall] in P. apply andb_prop in P as [P _]. apply negb_true_iff in P. now rewrite P.
Qed.
Lemma no_key m r : mention_ok wordy m = true -> match r with "" => True | String c _ => c = " "%char end -> strip_prefix "subgraph" (mention_text m ++ r) = None.
Proof.
  intros H R. unfold mention_ok in H. apply andb_prop in H as [I _]. pose proof (id_parts _ I) as (_ & _ & _ & K & _).
  destruct (strip_prefix "subgraph" (mention_text m ++ r)) as [x|] eqn:E; [exfalso|reflexivity]. apply strip_prefix_iff in E. unfold mention_text in E. rewrite sapp_assoc in E.
  destruct (sapp_split _ _ _ _ E) as [(u & F & _)|(u & F & G)]; [rewrite F, starts_with_app in K; discriminate|].
  assert (W : sforall (fun c => negb (special c) && negb (is_ws c)) u = true).
  { assert (X : sforall (fun c => negb (special c) && negb (is_ws c)) "subgraph" = true) by reflexivity. rewrite F, sforall_app in X. now apply andb_prop in X as [_ X]. }
  destruct u as [|c u]; [rewrite sapp_nil_r in F; rewrite <- F in K; discriminate|]. cbn in W. apply andb_prop in W as [W _].
  destruct (m_look m) as [[k t]|].
  - destruct k; cbn in G; injection G as <- _; discriminate.
  - cbn in G. destruct r as [|d r]; [discriminate|]. cbn in G. injection G as <- _. subst d. discriminate.
Qed.
Lemma not_end m : mention_ok wordy m = true -> String.eqb (mention_text m) "end" = false.
Proof.
  intros H. unfold mention_ok in H. apply andb_prop in H as [I _]. pose proof (id_parts _ I) as (_ & _ & K & _ & _). destruct (String.eqb_spec (mention_text m) "end") as [E|]; [exfalso|reflexivity].
  unfold mention_text in E. destruct (m_look m) as [[k t]|]; [|rewrite sapp_nil_r in E; congruence].
  assert (X : sforall (fun c => negb (special c)) "end" = true) by reflexivity. rewrite <- E, sforall_app in X. apply andb_prop in X as [_ X]. destruct k; discriminate.
Qed.
Lemma stmt_read p l s : stmt_ok wordy s = true -> trim l = stmt_text s -> parse_line wordy p l = told p s.
Proof.
  intros H E. unfold parse_line. rewrite E. destruct s as [m|a k t b]; cbn [stmt_text stmt_ok told] in *.
  - pose proof (first_char m "" H) as [Z1 Z2]. pose proof (no_key m "" H I) as K. rewrite sapp_nil_r in *. rewrite Z1, Z2, K. cbn [orb].
    rewrite (not_end m H), (no_link m H), (node_read m H). reflexivity.
  - apply andb_prop in H as [H T]. apply andb_prop in H as [A B].
    match goal with |- context [String.eqb (mention_text a ++ ?r) ""] => pose proof (first_char a r A) as [Z1 Z2]; pose proof (no_key a r A eq_refl) as K end.
    rewrite Z1, Z2, K. cbn [orb].
    fold (bar t). assert (EN : String.eqb (mention_text a ++ " " ++ link_text k ++ bar t ++ " " ++ mention_text b) "end" = false).
    { destruct (String.eqb_spec (mention_text a ++ " " ++ link_text k ++ bar t ++ " " ++ mention_text b) "end") as [Q|]; [exfalso|reflexivity].
      assert (X : sforall (fun c => negb (is_ws c)) "end" = true) by reflexivity. rewrite <- Q, !sforall_app in X. apply andb_prop in X as [_ X]. discriminate. }
    rewrite EN. rewrite link_found; [|exact A|].
    + rewrite arrow_read, label_read, (node_read a A), (node_read b B) by assumption. reflexivity.
    + rewrite !sforall_app, (mention_free b ">" B) by reflexivity. destruct t as [t|]; [|reflexivity]. cbn [bar]. rewrite !sforall_app, (caption_free t ">" T) by reflexivity. reflexivity.
Qed.
End Line.
