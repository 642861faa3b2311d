(** Proofs about package validation. *)
From Coq Require Import String Ascii List Bool Arith Lia Permutation.
From Verif Require Import Str ExportModel ResolveModel ResolveSpec ResolveProofs ValidModel ValidSpec.
Import ListNotations.
Open Scope nat_scope.
Open Scope string_scope.
Lemma sforall_srev p s : sforall p (srev s) = sforall p s.
Proof. induction s as [|c s IH]; [reflexivity|]. rewrite srev_cons, sforall_app, IH. cbn. rewrite andb_true_r. apply andb_comm. Qed.
Local Arguments String.append _ _ : simpl nomatch.

Lemma sapp_inv_head (p : string) : forall a b, p ++ a = p ++ b -> a = b.
Proof. induction p as [|c p IH]; intros a b E; [exact E|]. cbn in E. injection E as E. now apply IH. Qed.
(** ** Finding strings *)
Lemma split_once_none p s : split_once p s = None <-> absent p s.
Proof.
  induction s as [|c s IH].
  - split.
    + intros H a b E. cbn in H. destruct a; [|discriminate]. cbn in E. apply strip_prefix_iff in E. rewrite E in H. discriminate.
    + intros H. cbn. destruct (strip_prefix p "") as [r|] eqn:F; [|reflexivity]. apply strip_prefix_iff in F. exfalso. exact (H "" r F).
  - split.
    + intros H a b E. cbn [split_once] in H. destruct (strip_prefix p (String c s)) eqn:F; [discriminate|].
      destruct a as [|d a]; cbn in E.
      * rewrite E, strip_prefix_app in F. discriminate.
      * injection E as _ E. destruct (split_once p s) as [[u v]|]; [discriminate|]. exact (proj1 IH eq_refl a b E).
    + intros H. cbn [split_once]. destruct (strip_prefix p (String c s)) as [r|] eqn:F; [apply strip_prefix_iff in F; exfalso; exact (H "" r F)|].
      rewrite (proj2 IH); [reflexivity|]. intros a b E. apply (H (String c a) b). cbn. now rewrite E.
Qed.
Lemma split_once_some p s a b : split_once p s = Some (a, b) -> s = a ++ p ++ b.
Proof.
  revert a. induction s as [|c s IH]; intros a H; cbn [split_once] in H; destruct (strip_prefix p _) as [r|] eqn:F.
  - injection H as <- <-. apply strip_prefix_iff in F. exact F.
  - discriminate.
  - injection H as <- <-. apply strip_prefix_iff in F. exact F.
  - destruct (split_once p s) as [[u v]|]; [|discriminate]. injection H as <- <-. cbn. f_equal. now apply IH.
Qed.
Lemma contains_iff p s : contains p s = true <-> exists a b, s = a ++ p ++ b.
Proof.
  unfold contains. destruct (split_once p s) as [[a b]|] eqn:E.
  - split; [|reflexivity]. intros _. exists a, b. now apply split_once_some.
  - split; [discriminate|]. intros (a & b & H). exfalso. exact (proj1 (split_once_none p s) E a b H).
Qed.
(** The first occurrence, for a needle whose first character does not come again in it. *)
Definition once (p : string) : bool := match p with "" => false | String c p => sforall (fun d => negb (Ascii.eqb d c)) p end.
Lemma prefix_cases p : forall s t r, s ++ t = p ++ r -> (exists u, s = p ++ u) \/ (exists u, p = s ++ u /\ u <> "" /\ t = u ++ r).
Proof.
  induction p as [|c p IH]; intros s t r E.
  - left. now exists s.
  - destruct s as [|d s].
    + right. exists (String c p). cbn in *. repeat split; [discriminate|exact E].
    + cbn in E. injection E as -> E. destruct (IH s t r E) as [(u & ->)|(u & -> & N & ->)].
      * left. now exists u.
      * right. exists u. now repeat split.
Qed.
Lemma split_once_first p a b : once p = true -> absent p a -> split_once p (a ++ p ++ b) = Some (a, b).
Proof.
  intros O. induction a as [|c a IH]; intros A.
  - cbn [append]. destruct p as [|d p]; [discriminate|]. change (split_once (String d p) (String d (p ++ b)) = Some ("", b)).
    cbn [split_once]. change (String d (p ++ b)) with (String d p ++ b). now rewrite strip_prefix_app.
  - change (String c a ++ p ++ b) with (String c (a ++ p ++ b)). cbn [split_once].
    destruct (strip_prefix p (String c (a ++ p ++ b))) as [r|] eqn:F.
    + exfalso. apply strip_prefix_iff in F. change (String c a ++ (p ++ b) = p ++ r) in F. destruct (prefix_cases _ _ _ _ F) as [(u & E)|(u & E & N & T)].
      * exact (A "" u E).
      * rewrite E in O, T. cbn in O. destruct u as [|x u]; [congruence|]. cbn in T. injection T as X _. subst x.
        rewrite sforall_app in O. apply andb_prop in O as [_ O]. cbn in O. now rewrite Ascii.eqb_refl in O.
    + rewrite IH; [reflexivity|]. intros x y E. apply (A (String c x) y). cbn. now rewrite E.
Qed.
Lemma absent_left p c s : absent p s -> starts_with p (String c s) = false -> absent p (String c s).
Proof.
  intros A S a b E. destruct a as [|d a]; cbn in E.
  - rewrite E in S. now rewrite starts_with_app in S.
  - injection E as _ E. exact (A a b E).
Qed.
(** A text whose characters all differ from the needle's first can be put before. *)
Lemma absent_before c p x s : sforall (fun d => negb (Ascii.eqb c d)) x = true -> absent (String c p) s -> absent (String c p) (x ++ s).
Proof.
  induction x as [|d x IH]; intros F A; [exact A|]. cbn in F. apply andb_prop in F as [D F]. cbn. apply absent_left; [now apply IH|].
  unfold starts_with. cbn. destruct (Ascii.eqb c d); [discriminate|reflexivity].
Qed.
Lemma absent_part p a s b : absent p (a ++ s ++ b) -> absent p s.
Proof. intros A x y E. apply (A (a ++ x) (y ++ b)). rewrite E, !sapp_assoc. reflexivity. Qed.
Lemma unquoted_split id r : unquoted id -> split_once """" (id ++ """" ++ r) = Some (id, r).
Proof.
  intros U. apply split_once_first; [reflexivity|]. intros a b E. unfold unquoted in U. rewrite E, !sforall_app in U.
  apply andb_prop in U as [_ U]. apply andb_prop in U as [U _]. discriminate.
Qed.

Lemma app_len (a b : string) : String.length (a ++ b) = String.length a + String.length b.
Proof. induction a as [|c a IH]; [reflexivity|]. cbn. now rewrite IH. Qed.

(** ** The scanner of relationship parts *)
Lemma scan_none base fuel s : absent "Id=""" s -> scan_rels fuel base s = [].
Proof. intros A. destruct fuel; [reflexivity|]. cbn [scan_rels]. rewrite (proj2 (split_once_none _ _) A). reflexivity. Qed.
Lemma scan_written base s l : written s l -> forall x fuel, sforall (fun d => negb (Ascii.eqb "I" d)) x = true -> String.length (x ++ s) < fuel ->
  scan_rels fuel base (x ++ s) = map (fun '(id, t, e) => Rel id t (resolve_rel_target base t) e) l.
Proof.
  induction 1 as [s A|pre id mid target tail rest l external A1 U1 A2 U2 U3 X W IH]; intros x fuel F L.
  - cbn [map]. apply scan_none. now apply absent_before.
  - destruct fuel as [|fuel]; [lia|]. cbn [scan_rels]. change dq with """" in *.
    set (rest1 := mid ++ _). replace (x ++ pre ++ "Id=""" ++ id ++ """" ++ rest1) with ((x ++ pre) ++ "Id=""" ++ (id ++ """" ++ rest1)) by now rewrite !sapp_assoc.
    rewrite split_once_first; [|reflexivity|now apply absent_before]. rewrite unquoted_split by exact U1.
    unfold rest1. clear rest1.
    replace ("""" ++ mid ++ "Target=""" ++ target ++ """" ++ tail ++ ">" ++ rest) with (("""" ++ mid) ++ "Target=""" ++ (target ++ """" ++ (tail ++ ">" ++ rest))) by now rewrite !sapp_assoc.
    rewrite split_once_first; [|reflexivity|now apply absent_before]. rewrite unquoted_split by exact U2.
    unfold upto, cut. replace ("""" ++ tail ++ ">" ++ rest) with (("""" ++ tail) ++ ">" ++ rest) by now rewrite !sapp_assoc.
    rewrite split_once_first.
    + cbn [map]. f_equal.
      * f_equal. destruct (contains _ ("""" ++ tail)) eqn:C.
        { symmetry. apply X. apply contains_iff in C. destruct C as (a & b & E). destruct a as [|c a]; [discriminate|]. cbn in E. injection E as _ E. exists a, b. exact E. }
        { destruct external; [|reflexivity]. exfalso. destruct (proj1 X eq_refl) as (a & b & E).
          assert (C' : contains "TargetMode=""External""" ("""" ++ tail) = true) by (apply contains_iff; exists ("""" ++ a), b; now rewrite E, !sapp_assoc). congruence. }
      * apply IH; [reflexivity|]. rewrite !app_len in *. cbn [String.length] in *. lia.
    + reflexivity.
    + intros a b E. unfold unclosed in U3. assert (Z : sforall (fun c => negb (Ascii.eqb c ">")) ("""" ++ tail) = true) by exact U3.
      rewrite E, !sforall_app in Z. apply andb_prop in Z as [_ Z]. apply andb_prop in Z as [Z _]. discriminate.
Qed.
Lemma parse_written base s l : written s l -> parse_relationships s base = map (fun '(id, t, e) => Rel id t (resolve_rel_target base t) e) l.
Proof. intros W. unfold parse_relationships. apply (scan_written base s l W "" (S (String.length s))); [reflexivity|cbn; lia]. Qed.

(** ** The scanner of attributes *)
Lemma scan_attrs_values tag attr (c : ascii) tag' s l : tag = String c tag' -> once tag = true -> once attr = true ->
  sforall (fun d => negb (Ascii.eqb c d)) "/>" = true -> sforall (fun d => negb (Ascii.eqb "/" d)) tag = true ->
  (forall d a', attr = String d a' -> sforall (fun x => negb (Ascii.eqb d x)) tag = true) ->
  values tag attr s l -> forall x fuel, sforall (fun d => negb (Ascii.eqb c d)) x = true -> String.length (x ++ s) < fuel -> scan_attrs fuel tag attr (x ++ s) = l.
Proof.
  intros ET OT OA ND NT NA. induction 1 as [s A|pre mid v tail rest l A1 A2 U A3 W IH]; intros x fuel F L.
  - destruct fuel; [reflexivity|]. cbn [scan_attrs]. unfold cut. rewrite (proj2 (split_once_none _ _)); [reflexivity|]. rewrite ET in A |- *. now apply absent_before.
  - destruct fuel as [|fuel]; [lia|]. cbn [scan_attrs]. unfold cut at 1. change dq with """" in *.
    replace (x ++ pre ++ tag ++ mid ++ attr ++ v ++ """" ++ tail ++ "/>" ++ rest) with ((x ++ pre) ++ tag ++ ((mid ++ attr ++ v ++ """" ++ tail) ++ "/>" ++ rest)) by now rewrite !sapp_assoc.
    rewrite split_once_first; [|exact OT|rewrite ET in A1 |- *; now apply absent_before].
    unfold cut. replace (tag ++ (mid ++ attr ++ v ++ """" ++ tail) ++ "/>" ++ rest) with ((tag ++ mid ++ attr ++ v ++ """" ++ tail) ++ "/>" ++ rest) by now rewrite !sapp_assoc.
    assert (N1 : absent "/>" (tag ++ mid ++ attr ++ v ++ """" ++ tail)).
    { apply absent_before; [exact NT|exact A3]. }
    rewrite (split_once_first "/>") by (reflexivity || exact N1).
    replace (tag ++ mid ++ attr ++ v ++ """" ++ tail) with ((tag ++ mid) ++ attr ++ (v ++ """" ++ tail)) by now rewrite !sapp_assoc.
    destruct attr as [|d attr]; [discriminate|].
    rewrite (split_once_first (String d attr)); [|exact OA|apply absent_before; [exact (NA d attr eq_refl)|exact A2]].
    rewrite unquoted_split by exact U. cbn [app]. f_equal. apply IH; [exact ND|]. rewrite !app_len in *. cbn [String.length] in *. lia.
Qed.
Lemma extract_values xml element attr l : values ("<" ++ element) (attr ++ "=""") xml l -> once ("<" ++ element) = true -> once (attr ++ "=""") = true ->
  sforall (fun d => negb (Ascii.eqb "/" d)) element = true -> (forall d a', attr ++ "=""" = String d a' -> sforall (fun x => negb (Ascii.eqb d x)) ("<" ++ element) = true) ->
  extract_attr_values xml element attr = l.
Proof.
  intros V OT OA NT NA. unfold extract_attr_values. apply (scan_attrs_values ("<" ++ element) (attr ++ "=""") "<" element xml l eq_refl OT OA eq_refl) with (x := "");
    [exact NT|exact NA|exact V|reflexivity|cbn; lia].
Qed.

(** ** The scanner of references *)
Lemma occ p r : once p = true -> forall a x y, split_once p (a ++ p ++ r) = Some (x, y) -> y = r \/ exists w, y = w ++ p ++ r.
Proof.
  intros O. induction a as [|c a IH]; intros x y E.
  - left. rewrite (split_once_first p "" r O) in E; [congruence|]. intros a b Q. destruct a; [|discriminate]. destruct p; discriminate.
  - change (String c a ++ p ++ r) with (String c (a ++ p ++ r)) in E. cbn [split_once] in E. destruct (strip_prefix p _) as [z|] eqn:F.
    + injection E as _ <-. right. apply strip_prefix_iff in F. change (String c a ++ (p ++ r) = p ++ z) in F. destruct (prefix_cases _ _ _ _ F) as [(u & E)|(u & E & N & T)].
      * exists u. rewrite E, sapp_assoc in F. now apply sapp_inv_head in F.
      * exfalso. rewrite E in O, T. cbn in O. destruct u as [|d u]; [congruence|]. cbn in T. injection T as X _. subst d.
        rewrite sforall_app in O. apply andb_prop in O as [_ O]. cbn in O. now rewrite Ascii.eqb_refl in O.
    + destruct (split_once p (a ++ p ++ r)) as [[u v]|] eqn:G; [|discriminate]. injection E as _ <-. exact (IH u v eq_refl).
Qed.
Lemma scan_values_all p id : once p = true -> unquoted id -> forall fuel a b, String.length (a ++ p ++ id ++ """" ++ b) < fuel -> In id (scan_values fuel p (a ++ p ++ id ++ """" ++ b)).
Proof.
  intros O U. induction fuel as [|fuel IH]; intros a b L; [lia|]. cbn [scan_values]. change dq with """" in *.
  destruct (split_once p (a ++ p ++ id ++ """" ++ b)) as [[x y]|] eqn:E.
  2:{ exfalso. apply (proj1 (split_once_none _ _) E a (id ++ """" ++ b)). reflexivity. }
  destruct (occ _ _ O _ _ _ E) as [->|(w & ->)].
  - rewrite unquoted_split by exact U. now left.
  - apply in_or_app. right. apply IH. apply split_once_some in E. rewrite E in L. rewrite !app_len in *. destruct p; [discriminate|]. cbn [String.length] in *. lia.
Qed.

(** ** The archive *)
Lemma newest_by_name files n c : newest files n c -> by_name files n = Some c.
Proof.
  intros (a & b & -> & N). unfold by_name. rewrite rev_app_distr. cbn [rev]. rewrite <- app_assoc.
  assert (F : forall l r, ~ In n (map fst l) -> find (fun e : string * string => String.eqb (fst e) n) (l ++ r) = find (fun e => String.eqb (fst e) n) r).
  { induction l as [|[m d] l IH]; intros r M; [reflexivity|]. cbn in M |- *. destruct (String.eqb_spec m n) as [->|_]; [tauto|]. apply IH. tauto. }
  rewrite F; [cbn; now rewrite String.eqb_refl|]. rewrite map_rev. intros I. apply in_rev in I. contradiction.
Qed.
Lemma by_name_newest files n c : by_name files n = Some c -> newest files n c.
Proof.
  unfold by_name. induction files as [|[m d] l IH] using rev_ind; [discriminate|]. rewrite rev_app_distr. cbn. destruct (String.eqb_spec m n) as [->|N].
  - injection 1 as <-. exists l, []. split; [reflexivity|]. intros [].
  - intros H. destruct (IH H) as (a & b & -> & M). exists a, (b ++ [(m, d)])%list. split; [now rewrite <- app_assoc|]. rewrite map_app. intros I.
    apply in_app_or in I as [I|[I|[]]]; [contradiction|]. cbn in I. contradiction.
Qed.
Lemma flat_nil {A B} (f : A -> list B) l : flat_map f l = [] -> forall x, In x l -> f x = [].
Proof. intros H x I. destruct (f x) as [|y t] eqn:E; [reflexivity|]. exfalso. assert (J : In y (flat_map f l)) by (apply in_flat_map; exists x; rewrite E; split; [exact I|now left]). rewrite H in J. exact J. Qed.
Lemma app_nil {A} (a b : list A) : (a ++ b)%list = [] -> a = [] /\ b = [].
Proof. destruct a; [now split|discriminate]. Qed.
Lemma has_part_iff names n : has_part names n = true <-> In n names.
Proof.
  unfold has_part. rewrite existsb_exists. split.
  - intros (x & I & E). apply String.eqb_eq in E. now subst.
  - intros I. exists n. now rewrite String.eqb_refl.
Qed.

Lemma split_char_first c s a b : split_once (s1 c) s = Some (a, b) -> sforall (fun d => negb (Ascii.eqb d c)) a = true.
Proof.
  revert a. induction s as [|d s IH]; intros a H; [discriminate|]. cbn [split_once] in H. unfold s1 in H. cbn [strip_prefix] in H. destruct (Ascii.eqb c d) eqn:E.
  - injection H as <- _. reflexivity.
  - fold (s1 c) in H. destruct (split_once (s1 c) s) as [[u v]|]; [|discriminate]. injection H as <- <-. cbn. rewrite Ascii.eqb_sym, E. now apply IH.
Qed.
Lemma last_piece_spec n : exists base, (n = base ++ "." ++ last_piece n \/ n = last_piece n) /\ sforall (fun c => negb (Ascii.eqb c ".")) (last_piece n) = true.
Proof.
  unfold last_piece, rsplit_once. destruct (split_once (s1 ".") (srev n)) as [[a b]|] eqn:E.
  - exists (srev b). assert (F := split_char_first _ _ _ _ E). apply split_once_some in E. split; [left|now rewrite sforall_srev].
    rewrite <- (srev_involutive n), E, !srev_sapp, sapp_assoc. reflexivity.
  - exists "". split; [now right|]. rewrite <- sforall_srev. apply (proj1 (split_once_none _ _)) in E. revert E. generalize (srev n). intros m E.
    induction m as [|c m IH]; [reflexivity|]. cbn. destruct (Ascii.eqb_spec c ".") as [->|N]; [exfalso; exact (E "" m eq_refl)|].
    apply IH. intros x y Q. apply (E (String c x) y). cbn. now rewrite Q.
Qed.
Section V.
  Context (files : list (string * string)) (is_dir utf8 : string -> bool) (names : list string).
  Context (N : archive_names files is_dir names) (V : validate_package files utf8 names = []).
  Notation present n := (present is_dir files n).

  Lemma names_present n : In n names <-> present n.
  Proof. destruct N as [_ P]. rewrite P. split; [intros (c & I & D); split; [exact D|now exists c]|intros (D & c & I); now exists c]. Qed.
  Lemma checks : check_required_parts names = [] /\ check_xml_parts files utf8 names = [] /\ check_relationship_targets files utf8 names = []
    /\ check_content_types files utf8 names = [] /\ check_presentation_structure files utf8 names = [] /\ check_slide_master files utf8 names = []
    /\ check_theme files = [] /\ check_chart_packages files utf8 names = [] /\ check_slide_relationships files utf8 names = []
    /\ check_notes_slides files utf8 names = [] /\ check_handout_package files utf8 names = [] /\ check_notes_master files utf8 names = [].
  Proof.
    unfold validate_package in V. cbn [concat] in V. repeat (apply app_nil in V as [? V]). repeat split; assumption.
  Qed.
  Lemma required n : In n REQUIRED_PACKAGE_PARTS -> present n.
  Proof.
    intros I. destruct checks as (C & _). unfold check_required_parts in C. assert (E := flat_nil _ _ C n I). cbn beta in E.
    destruct (has_part names n) eqn:H; [|discriminate]. now apply names_present, has_part_iff.
  Qed.
  Lemma parts_in n c : In n names -> ends_with ".rels" n = true -> newest files n c -> utf8 c = true ->
    In (n, parse_relationships c (rels_source_dir n)) (relationship_parts files utf8 names).
  Proof.
    intros I E W U. unfold relationship_parts. apply in_flat_map. exists n. split; [exact I|]. rewrite E. unfold read_part. rewrite (newest_by_name _ _ _ W), U. now left.
  Qed.
  Lemma targets n c : present n -> ends_with ".rels" n = true -> newest files n c -> utf8 c = true ->
    forall l id t, written c l -> In (id, t, false) l -> present (resolve_rel_target (rels_source_dir n) t).
  Proof.
    intros I E W U l id t R J. destruct checks as (_ & _ & C & _). unfold check_relationship_targets in C. apply names_present in I.
    assert (D := flat_nil _ _ C _ (parts_in n c I E W U)). cbn beta iota in D. rewrite (parse_written _ _ _ R) in D.
    assert (G := flat_nil _ _ D (Rel id t (resolve_rel_target (rels_source_dir n) t) false)). cbn [r_external r_resolved] in G.
    destruct (has_part names _) eqn:H; [now apply names_present, has_part_iff|]. exfalso. discriminate G. apply in_map_iff. now exists (id, t, false).
  Qed.
  Lemma relationships_of n c : present n -> ends_with ".rels" n = true -> newest files n c -> utf8 c = true -> relationships files utf8 names n = parse_relationships c (rels_source_dir n).
  Proof.
    intros I E W U. apply names_present in I. assert (P := parts_in n c I E W U). unfold relationships.
    destruct (find _ _) as [[m l]|] eqn:F.
    - apply find_some in F as [J Q]. cbn in Q. apply String.eqb_eq in Q. subst m. unfold relationship_parts in J. apply in_flat_map in J as (x & _ & J).
      destruct (ends_with ".rels" x); [|contradiction]. destruct (read_part files utf8 x) as [d|] eqn:R; [|contradiction]. destruct J as [J|[]]. injection J as -> <-.
      unfold read_part in R. rewrite (newest_by_name _ _ _ W), U in R. injection R as <-. reflexivity.
    - exfalso. apply (find_none _ _ F) in P. cbn in P. now rewrite String.eqb_refl in P.
  Qed.
  Lemma relationships_some n r : In r (relationships files utf8 names n) -> present n /\ exists c, newest files n c /\ utf8 c = true /\ In r (parse_relationships c (rels_source_dir n)).
  Proof.
    unfold relationships. destruct (find _ _) as [[m l]|] eqn:F; [|intros []]. apply find_some in F as [J Q]. cbn in Q. apply String.eqb_eq in Q. subst m. intros I.
    unfold relationship_parts in J. apply in_flat_map in J as (x & X & J).
    destruct (ends_with ".rels" x); [|contradiction]. destruct (read_part files utf8 x) as [d|] eqn:R; [|contradiction]. destruct J as [J|[]]. injection J as -> <-.
    split; [now apply names_present|]. unfold read_part in R. destruct (by_name files n) as [d'|] eqn:B; [|discriminate]. destruct (utf8 d') eqn:U; [|discriminate]. injection R as ->.
    exists d. split; [now apply by_name_newest|]. now split.
  Qed.
  Lemma content_types ct n : newest files "[Content_Types].xml" ct -> utf8 ct = true -> present n -> ends_with ".rels" n = false -> n <> "[Content_Types].xml" -> typed_by ct n.
  Proof.
    intros W U I E D. destruct checks as (_ & _ & _ & C & _). unfold check_content_types, read_part in C. rewrite (newest_by_name _ _ _ W), U in C.
    apply names_present in I. assert (G := flat_nil _ _ C n I). cbn beta in G. rewrite E in G. destruct (String.eqb_spec n "[Content_Types].xml") as [|_]; [contradiction|]. cbn [orb] in G.
    destruct (contains ("/" ++ n) ct) eqn:O.
    - left. apply contains_iff in O. destruct O as (a & b & ->). exists a, b. now rewrite sapp_assoc.
    - right. set (ext := last_piece n) in *. destruct (String.eqb_spec ext "") as [|NE]; [discriminate|]. cbn [orb] in G. destruct (contains _ ct) eqn:P in G; [|discriminate].
      apply contains_iff in P. destruct P as (a & b & ->). 
      assert (L : exists base, (n = base ++ "." ++ ext \/ n = ext) /\ sforall (fun c => negb (Ascii.eqb c ".")) ext = true).
      { apply last_piece_spec. }
      destruct L as (base & L & DT). exists base, ext, a, b. split; [exact L|]. split; [exact NE|]. split; [exact DT|]. now rewrite !sapp_assoc.
  Qed.
  Lemma rel_found rels id : (exists r, rel_by_id rels id = Some r /\ In r rels /\ r_id r = id) \/ rel_by_id rels id = None.
  Proof.
    unfold rel_by_id. destruct (find _ (rev rels)) as [r|] eqn:F; [left|now right]. exists r. split; [reflexivity|]. apply find_some in F as [I E].
    split; [now apply in_rev|now apply String.eqb_eq].
  Qed.
  Notation has_rel := (has_rel is_dir utf8 files).
  Lemma rel_good n r id (good : string -> bool -> Prop) : ends_with ".rels" n = true -> In r (relationships files utf8 names n) -> r_id r = id ->
    (r_resolved r = resolve_rel_target (rels_source_dir n) (r_target r) -> good (r_target r) (r_external r)) -> has_rel n id good.
  Proof.
    intros E I D G. destruct (relationships_some n r I) as (P & c & W & U & J). exists c. split; [exact (conj P (conj W U))|]. intros l R.
    rewrite (parse_written _ _ _ R) in J. apply in_map_iff in J as ([[i t] e] & <- & J). cbn in *. subst i. exists t, e. split; [exact J|]. now apply G.
  Qed.
  Lemma ends_rels n : ends_with ".rels" (n ++ ".rels") = true.
  Proof. unfold ends_with. rewrite srev_sapp. apply starts_with_app. Qed.
  Lemma slide_part f : sforall (fun c => negb (Ascii.eqb c "/")) f = true -> is_slide_part ("ppt/slides/slide" ++ f ++ ".xml") = true.
  Proof.
    intros F. unfold is_slide_part. rewrite starts_with_app. assert (E : ends_with ".xml" ("ppt/slides/slide" ++ f ++ ".xml") = true) by (unfold ends_with; rewrite !srev_sapp, sapp_assoc; apply starts_with_app).
    rewrite E. cbn [andb]. destruct (contains "/_rels/" _) eqn:C; [|reflexivity]. exfalso. apply contains_iff in C. destruct C as (a & b & C).
    assert (S : split_once "/_rels/" ("ppt/slides/slide" ++ f ++ ".xml") = None).
    { cbn. rewrite (proj2 (split_once_none _ _)); [reflexivity|]. intros x y Q. assert (Z : sforall (fun c => negb (Ascii.eqb c "/")) (f ++ ".xml") = true) by now rewrite sforall_app, F.
      rewrite Q, sforall_app in Z. apply andb_prop in Z as [_ Z]. discriminate. }
    exact (proj1 (split_once_none _ _) S a b C).
  Qed.
  Lemma replace_none p r s : (forall a b, s <> a ++ p ++ b) -> replace_str p r s = s.
  Proof.
    intros A. unfold replace_str. induction s as [|c s IH]; [reflexivity|]. cbn [replace_from]. destruct (starts_with p (String c s)) eqn:S.
    - exfalso. apply starts_with_iff in S. destruct S as (t & S). exact (A "" t S).
    - f_equal. apply IH. intros a b E. apply (A (String c a) b). cbn. now rewrite E.
  Qed.
  Lemma replace_skip k p r s : replace_from (String.length k) p r (k ++ s) = replace_from 0 p r s.
  Proof. induction k as [|c k IH]; [reflexivity|]. exact IH. Qed.
  Lemma replace_head p r s : p <> "" -> (forall a b, s <> a ++ p ++ b) -> replace_str p r (p ++ s) = r ++ s.
  Proof.
    intros NE A. destruct p as [|c p]; [congruence|]. unfold replace_str. change (String c p ++ s) with (String c (p ++ s)). cbn [replace_from].
    change (String c (p ++ s)) with (String c p ++ s). rewrite starts_with_app. cbn [String.length pred]. rewrite replace_skip. f_equal. now apply replace_none.
  Qed.
  Lemma slash_free a p b s : sforall (fun c => negb (Ascii.eqb c "/")) s = true -> s <> a ++ (p ++ "/") ++ b.
  Proof. intros F ->. rewrite !sforall_app in F. apply andb_prop in F as [_ F]. apply andb_prop in F as [F _]. apply andb_prop in F as [_ F]. discriminate. Qed.
  Lemma slide_references f s id a b p : present ("ppt/slides/slide" ++ f ++ ".xml") -> sforall (fun c => negb (Ascii.eqb c "/")) f = true ->
    newest files ("ppt/slides/slide" ++ f ++ ".xml") s -> utf8 s = true -> p = "r:embed=""" \/ p = "r:id=""" -> unquoted id -> starts_with "rId" id = true ->
    s = a ++ p ++ id ++ """" ++ b -> 
    has_rel ("ppt/slides/_rels/slide" ++ f ++ ".xml.rels") id
      (fun t e => e = false -> present (resolve_rel_target (rels_source_dir ("ppt/slides/_rels/slide" ++ f ++ ".xml.rels")) t)).
  Proof.
    intros I F W U P Q R E. destruct checks as (_ & _ & _ & _ & _ & _ & _ & _ & C & _). unfold check_slide_relationships in C. apply names_present in I.
    assert (D := flat_nil _ _ C ("ppt/slides/slide" ++ f ++ ".xml")). cbn beta in D. rewrite filter_In in D. specialize (D (conj I (slide_part f F))).
    unfold read_part in D. rewrite (newest_by_name _ _ _ W), U in D. cbv zeta in D. apply app_nil in D as [D _].
    assert (X : replace_str "ppt/slides/" "ppt/slides/_rels/" ("ppt/slides/slide" ++ f ++ ".xml") ++ ".rels" = "ppt/slides/_rels/slide" ++ f ++ ".xml.rels").
    { change ("ppt/slides/slide" ++ f ++ ".xml") with ("ppt/slides/" ++ ("slide" ++ f ++ ".xml")). rewrite replace_head; [|discriminate|].
      - now rewrite !sapp_assoc.
      - intros x y. apply (slash_free x "ppt/slides" y). now rewrite !sforall_app, F. }
    rewrite X in D. set (n := "ppt/slides/_rels/slide" ++ f ++ ".xml.rels") in *.
    assert (J : In id (extract_rel_reference_ids s)).
    { unfold extract_rel_reference_ids. apply filter_In. split; [|exact R]. apply in_flat_map. exists p. split; [destruct P as [->| ->]; [now left|right; now left]|].
      rewrite E at 2. apply scan_values_all; [destruct P as [->| ->]; reflexivity|exact Q|]. rewrite E. apply Nat.lt_succ_diag_r. }
    assert (G := flat_nil _ _ D id J). cbn beta in G. destruct (rel_found (relationships files utf8 names n) id) as [(r & K & M & O)|K]; rewrite K in G; [|discriminate].
    assert (ER : ends_with ".rels" n = true) by (unfold n; change ".xml.rels" with (".xml" ++ ".rels"); rewrite <- !sapp_assoc; apply ends_rels).
    apply (rel_good n r id _ ER M O). intros RR EX. rewrite EX in G. rewrite <- RR. destruct (has_part names (r_resolved r)) eqn:H; [|discriminate]. now apply names_present, has_part_iff.
  Qed.
  Lemma repeated_nodup l : forall seen, repeated seen l = [] -> List.NoDup l /\ forall x, In x l -> ~ In x seen.
  Proof.
    induction l as [|x l IH]; intros seen H; [split; [constructor|intros ? []]|]. cbn in H. destruct (existsb (String.eqb x) seen) eqn:E; [discriminate|].
    destruct (IH (x :: seen) H) as [ND NI]. assert (NX : ~ In x seen) by (intros I; assert (T : existsb (String.eqb x) seen = true) by (apply existsb_exists; exists x; now rewrite String.eqb_refl); congruence).
    split; [constructor; [|exact ND]|].
    - intros I. apply (NI x I). now left.
    - intros y [<-|I]; [exact NX|]. intros J. apply (NI y I). now right.
  Qed.
  Lemma shape_ids f s l : present ("ppt/slides/slide" ++ f ++ ".xml") -> sforall (fun c => negb (Ascii.eqb c "/")) f = true ->
    newest files ("ppt/slides/slide" ++ f ++ ".xml") s -> utf8 s = true -> values "<p:cNvPr" "id=""" s l -> List.NoDup l.
  Proof.
    intros I F W U R. destruct checks as (_ & _ & _ & _ & _ & _ & _ & _ & C & _). unfold check_slide_relationships in C. apply names_present in I.
    assert (D := flat_nil _ _ C ("ppt/slides/slide" ++ f ++ ".xml")). cbn beta in D. rewrite filter_In in D. specialize (D (conj I (slide_part f F))).
    unfold read_part in D. rewrite (newest_by_name _ _ _ W), U in D. cbv zeta in D. apply app_nil in D as [_ D]. apply map_eq_nil in D.
    rewrite (extract_values s "p:cNvPr" "id" l R) in D; [|reflexivity..|intros d a' E; injection E as <- _; reflexivity].
    now apply repeated_nodup in D.
  Qed.
  Lemma slide_list pres l id : newest files "ppt/presentation.xml" pres -> utf8 pres = true -> values "<p:sldId" "r:id=""" pres l -> In id l ->
    has_rel "ppt/_rels/presentation.xml.rels" id (fun t _ => exists a b, resolve_rel_target "ppt" t = a ++ "/slides/slide" ++ b).
  Proof.
    intros W U R I. destruct checks as (_ & _ & _ & _ & C & _). unfold check_presentation_structure, read_part in C. rewrite (newest_by_name _ _ _ W), U in C. cbv zeta in C.
    apply app_nil in C as [_ C]. apply app_nil in C as [_ C]. apply app_nil in C as [C _].
    rewrite (extract_values pres "p:sldId" "r:id" l R) in C; [|reflexivity..|intros d a' E; injection E as <- _; reflexivity].
    assert (G := flat_nil _ _ C id I). cbn beta in G. set (rels := relationships _ _ _ _) in G. destruct (rel_found rels id) as [(r & K & M & O)|K]; rewrite K in G; [|discriminate].
    apply (rel_good _ r id); [reflexivity|exact M|exact O|]. intros RR. change (rels_source_dir _) with "ppt" in RR. rewrite <- RR.
    destruct (contains "/slides/slide" (r_resolved r)) eqn:T; [|discriminate]. now apply contains_iff.
  Qed.
  Lemma count_slides pres : newest files "ppt/presentation.xml" pres -> utf8 pres = true -> List.length (filter is_slide_part names) = matches "<p:sldId " pres.
  Proof.
    intros W U. destruct checks as (_ & _ & _ & _ & C & _). unfold check_presentation_structure, read_part in C. rewrite (newest_by_name _ _ _ W), U in C. cbv zeta in C.
    apply app_nil in C as [_ C]. apply app_nil in C as [_ C]. apply app_nil in C as [_ C]. destruct (Nat.eqb_spec (length (filter is_slide_part names)) (matches "<p:sldId " pres)) as [E|]; [exact E|discriminate].
  Qed.
  Lemma count_occurs p : once p = true -> forall fuel s k, occurs p s k -> String.length s < fuel -> count_matches fuel p s = k.
  Proof.
    intros O. induction fuel as [|fuel IH]; intros s k H L; [lia|]. cbn [count_matches]. destruct H as [s A|a r k A H].
    - now rewrite (proj2 (split_once_none _ _) A).
    - rewrite split_once_first by assumption. f_equal. apply IH; [exact H|]. rewrite !app_len in L. destruct p; [discriminate|]. cbn in L. lia.
  Qed.
  Lemma slide_name_iff n : slide_name n <-> is_slide_part n = true.
  Proof.
    unfold slide_name, is_slide_part. rewrite !andb_true_iff, negb_true_iff. split.
    - intros (A & B & C). split; [now split|]. unfold contains. now rewrite (proj2 (split_once_none _ _) C).
    - intros ((A & B) & C). split; [exact A|]. split; [exact B|]. apply split_once_none. unfold contains in C. destruct (split_once _ _); [discriminate|reflexivity].
  Qed.
  Lemma slide_count pres l k : holds is_dir utf8 files "ppt/presentation.xml" pres -> occurs "<p:sldId " pres k ->
    List.NoDup l -> (forall n, In n l <-> present n /\ slide_name n) -> List.length l = k.
  Proof.
    intros (_ & W & U) O ND L. rewrite <- (count_occurs "<p:sldId " eq_refl (S (String.length pres)) pres k O) by lia. fold (matches "<p:sldId " pres).
    rewrite <- (count_slides pres W U). apply Permutation_length. apply NoDup_Permutation; [exact ND|apply NoDup_filter; exact (proj1 N)|].
    intros n. rewrite L, filter_In, slide_name_iff, names_present. reflexivity.
  Qed.
  Lemma trim_start_head p f : p <> "" -> starts_with p f = false -> trim_start_matches p (p ++ f) = f.
  Proof.
    intros NE S. unfold trim_start_matches. rewrite app_len. destruct (String.length p + String.length f) as [|n] eqn:L; [destruct p; [congruence|discriminate]|].
    cbn [trim_start_str]. rewrite strip_prefix_app. destruct n as [|n]; [reflexivity|]. cbn [trim_start_str]. destruct (strip_prefix p f) as [r|] eqn:E; [|reflexivity].
    exfalso. apply strip_prefix_iff in E. rewrite E, starts_with_app in S. discriminate.
  Qed.
  Lemma trim_end_tail p f : p <> "" -> ends_with p f = false -> trim_end_matches p (f ++ p) = f.
  Proof.
    intros NE S. unfold trim_end_matches. rewrite srev_sapp, trim_start_head; [apply srev_involutive| |exact S].
    intros E. apply NE. rewrite <- (srev_involutive p), E. reflexivity.
  Qed.
  Lemma charts f : present ("ppt/charts/chart" ++ f ++ ".xml") -> sforall (fun c => negb (Ascii.eqb c "/")) f = true -> ends_with ".xml" f = false ->
    (exists id, has_rel ("ppt/charts/_rels/chart" ++ f ++ ".xml.rels") id (fun t _ => exists a b, t = a ++ "embeddings/" ++ b)) /\ present ("ppt/embeddings/Microsoft_Excel_Sheet" ++ f ++ ".xlsx").
  Proof.
    intros I F E. destruct checks as (_ & _ & _ & _ & _ & _ & _ & C & _). unfold check_chart_packages in C. apply names_present in I.
    assert (D := flat_nil _ _ C ("ppt/charts/chart" ++ f ++ ".xml")). cbn beta in D. rewrite filter_In, starts_with_app in D.
    assert (EX : ends_with ".xml" ("ppt/charts/chart" ++ f ++ ".xml") = true) by (unfold ends_with; rewrite !srev_sapp, sapp_assoc; apply starts_with_app).
    rewrite EX in D. specialize (D (conj I eq_refl)). cbv zeta in D.
    assert (FX : sforall (fun c => negb (Ascii.eqb c "/")) (f ++ ".xml") = true) by now rewrite sforall_app, F.
    assert (X : replace_str "ppt/charts/" "ppt/charts/_rels/" ("ppt/charts/chart" ++ f ++ ".xml") ++ ".rels" = "ppt/charts/_rels/chart" ++ f ++ ".xml.rels").
    { change ("ppt/charts/chart" ++ f ++ ".xml") with ("ppt/charts/" ++ ("chart" ++ f ++ ".xml")). rewrite replace_head; [|discriminate|].
      - now rewrite !sapp_assoc.
      - intros x y. apply (slash_free x "ppt/charts" y). rewrite sforall_app, FX. reflexivity. }
    rewrite X in D. set (n := "ppt/charts/_rels/chart" ++ f ++ ".xml.rels") in *.
    rewrite trim_start_head in D; [|discriminate|].
    2:{ destruct (starts_with "ppt/charts/chart" (f ++ ".xml")) eqn:S; [|reflexivity]. apply starts_with_iff in S. destruct S as (t & S). rewrite S in FX. discriminate. }
    rewrite trim_end_tail in D by (discriminate || exact E).
    destruct (has_part names n); [|discriminate]. cbn [negb] in D. apply app_nil in D as [D1 D]. apply app_nil in D as [_ D]. split.
    - destruct (existsb _ _) eqn:X1 in D1; [|discriminate]. apply existsb_exists in X1 as (r & M & R). exists (r_id r).
      assert (ER : ends_with ".rels" n = true) by (unfold n; change ".xml.rels" with (".xml" ++ ".rels"); rewrite <- !sapp_assoc; apply ends_rels).
      apply (rel_good n r (r_id r) _ ER M eq_refl). intros _. now apply contains_iff.
    - destruct (has_part names _) eqn:H in D; [|discriminate]. now apply names_present, has_part_iff.
  Qed.

  (** ** Targets as paths *)
  Lemma refers_resolve d t e : Forall name d -> refers d t e -> resolve_rel_target (path d) t = path e.
  Proof.
    intros ND [(S & segs & G & W)|(-> & NE & E)].
    - destruct (resolves d t segs ND S G) as (e' & W' & _ & R). rewrite R. apply walks_fold in W, W'. congruence.
    - now apply absolute.
  Qed.
  Lemma rels_part_dir d f n : rels_part d f n -> rels_source_dir n = path d /\ Forall name d /\ ends_with ".rels" n = true.
  Proof.
    intros [(-> & -> & ->)|(ND & NE & NR & NF & ->)]; [repeat split; constructor|].
    split; [now apply source_dir|]. split; [exact NE|]. rewrite <- !sapp_assoc. apply ends_rels.
  Qed.
  Lemma all_targets d f n c : rels_part d f n -> holds is_dir utf8 files n c ->
    forall l id t e, written c l -> In (id, t, false) l -> refers d t e -> present (path e).
  Proof.
    intros P (I & W & U) l id t e R J Q. destruct (rels_part_dir d f n P) as (D & ND & E). rewrite <- (refers_resolve d t e ND Q), <- D. now apply (targets n c I E W U l id).
  Qed.
  Lemma slide_refs f s id a b p : sforall (fun c => negb (Ascii.eqb c "/")) f = true -> holds is_dir utf8 files ("ppt/slides/slide" ++ f ++ ".xml") s ->
    p = "r:embed=""" \/ p = "r:id=""" -> unquoted id -> starts_with "rId" id = true -> s = a ++ p ++ id ++ """" ++ b ->
    has_rel ("ppt/slides/_rels/slide" ++ f ++ ".xml.rels") id (fun t external => external = false -> forall e, refers ["ppt"; "slides"] t e -> present (path e)).
  Proof.
    intros F (I & W & U) P Q R E. destruct (slide_references f s id a b p I F W U P Q R E) as (c & H & G). exists c. split; [exact H|]. intros l Z.
    destruct (G l Z) as (t & x & J & K). exists t, x. split; [exact J|]. intros -> e RE. specialize (K eq_refl).
    destruct (rels_part_dir ["ppt"; "slides"] ("slide" ++ f ++ ".xml") ("ppt/slides/_rels/slide" ++ f ++ ".xml.rels")) as (D & ND & _).
    { right. split; [discriminate|]. split; [repeat constructor; discriminate|]. split; [repeat constructor; discriminate|]. split; [rewrite !sforall_app, F; reflexivity|].
      cbn [path sjoin]. cbn [append]. now rewrite !sapp_assoc. }
    rewrite D, (refers_resolve _ _ _ ND RE) in K. exact K.
  Qed.
  Lemma listed pres l id : holds is_dir utf8 files "ppt/presentation.xml" pres -> values "<p:sldId" "r:id=""" pres l -> In id l ->
    has_rel "ppt/_rels/presentation.xml.rels" id (fun t _ => forall e, refers ["ppt"] t e -> exists a b, path e = a ++ "/slides/slide" ++ b).
  Proof.
    intros (I & W & U) R J. destruct (slide_list pres l id W U R J) as (c & H & G). exists c. split; [exact H|]. intros m Z.
    destruct (G m Z) as (t & x & K & a & b & E). exists t, x. split; [exact K|]. intros e RE. exists a, b. rewrite <- E. symmetry. apply (refers_resolve ["ppt"]); [repeat constructor; discriminate|exact RE].
  Qed.
End V.
