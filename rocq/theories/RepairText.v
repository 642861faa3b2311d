(** Texts: replacing, lines, and the largest id. *)
From Coq Require Import String Ascii List Bool Arith NArith Lia.
From Verif Require Import Str Num ExportModel ValidModel ValidSpec ValidProofs RepairModel RepairSpec.
Import ListNotations.
Open Scope nat_scope.
Open Scope string_scope.
Local Arguments String.append _ _ : simpl nomatch.

(** ** Replacing *)
Lemma replace_split p r s : p <> "" -> replace_str p r s = match split_once p s with Some (a, b) => a ++ r ++ replace_str p r b | None => s end.
Proof.
  intros NE. induction s as [|c s IH].
  - destruct p; [congruence|]. reflexivity.
  - unfold replace_str in *. cbn [replace_from split_once]. destruct (strip_prefix p (String c s)) as [t|] eqn:F.
    + apply strip_prefix_iff in F. assert (S : starts_with p (String c s) = true) by (rewrite F; apply starts_with_app). rewrite S. cbn [append].
      f_equal. destruct p as [|d p]; [congruence|]. cbn in F. injection F as -> F. subst s. cbn [String.length pred]. apply replace_skip.
    + assert (S : starts_with p (String c s) = false). { destruct (starts_with p (String c s)) eqn:S; [|reflexivity]. apply starts_with_iff in S. destruct S as (t & S). apply strip_prefix_iff in S. congruence. }
      rewrite S, IH. destruct (split_once p s) as [[a b]|]; reflexivity.
Qed.
Lemma replace_one p r a b : once p = true -> absent p a -> absent p b -> replace_str p r (a ++ p ++ b) = a ++ r ++ b.
Proof.
  intros O A B. assert (NE : p <> "") by (intros ->; discriminate). rewrite replace_split by exact NE. rewrite split_once_first by assumption.
  now rewrite (replace_none p r b B).
Qed.
Lemma contains_split p a b : contains p (a ++ p ++ b) = true.
Proof. apply contains_iff. now exists a, b. Qed.
Lemma replace_puts p r s : p <> "" -> contains p s = true -> exists a b, replace_str p r s = a ++ r ++ b.
Proof.
  intros NE C. rewrite replace_split by exact NE. unfold contains in C. destruct (split_once p s) as [[a b]|]; [|discriminate]. now eexists _, _.
Qed.
(** No occurrence begins before and ends after a character not found past its own beginning. *)
Definition tail_free (c : ascii) (p : string) : bool := match p with "" => true | String _ p => sforall (fun d => negb (Ascii.eqb d c)) p end.
Lemma absent_join p a c b : absent p a -> absent p (String c b) -> tail_free c p = true -> absent p (a ++ String c b).
Proof.
  intros A B N x y E. symmetry in E. destruct (prefix_cases a x (p ++ y) (String c b) E) as [(w & ->)|(w & -> & NE & T)].
  - rewrite sapp_assoc in E. apply sapp_inv_head in E. exact (B w y (eq_sym E)).
  - destruct (prefix_cases p w (String c b) y (eq_sym T)) as [(z & ->)|(z & -> & Z & T2)].
    + apply (A x z). reflexivity.
    + destruct z as [|d z]; [congruence|]. cbn in T2. injection T2 as <- _. destruct w as [|e w]; [congruence|]. cbn in N. rewrite sforall_app in N. apply andb_prop in N as [_ N]. cbn in N. now rewrite Ascii.eqb_refl in N.
Qed.

(** ** Lines *)
Lemma split_char_app c s t : split_char c (s ++ String c t) = (split_char c s ++ split_char c t)%list.
Proof.
  induction s as [|d s IH]; cbn; [now rewrite Ascii.eqb_refl|]. destruct (Ascii.eqb d c); [now rewrite IH|]. rewrite IH. destruct (split_char c s) as [|x l] eqn:E; [|reflexivity].
  destruct s; cbn in E; [discriminate|]. destruct (Ascii.eqb a c); [discriminate|]. destruct (split_char c s); discriminate.
Qed.
Lemma split_char_cons c s : exists x l, split_char c s = x :: l.
Proof. destruct s as [|d s]; cbn; [now eexists _, _|]. destruct (Ascii.eqb d c); [now eexists _, _|]. destruct (split_char c s); now eexists _, _. Qed.
Lemma split_char_none c s : sforall (fun x => negb (Ascii.eqb x c)) s = true -> split_char c s = [s].
Proof.
  induction s as [|d s IH]; intros F; [reflexivity|]. cbn in *. apply andb_prop in F as [D F]. destruct (Ascii.eqb d c); [discriminate|]. now rewrite (IH F).
Qed.
Lemma pieces_app l x r : pieces_lines (l ++ x :: r) = (map strip_cr l ++ pieces_lines (x :: r))%list.
Proof. induction l as [|y l IH]; [reflexivity|]. cbn [app map]. destruct l as [|z l]; [reflexivity|]. cbn [app] in IH |- *. cbn [pieces_lines]. cbn [pieces_lines] in IH. rewrite IH. reflexivity. Qed.
Definition all_lines (s : string) : list string := map strip_cr (split_char LF s).
Lemma lines_app a b : lines (a ++ nl ++ b) = (all_lines a ++ lines b)%list.
Proof.
  unfold lines, all_lines. change (nl ++ b) with (String LF b). rewrite split_char_app. destruct (split_char_cons LF b) as (x & l & E). rewrite E. apply pieces_app.
Qed.
Lemma all_lines_app a b : all_lines (a ++ nl ++ b) = (all_lines a ++ all_lines b)%list.
Proof. unfold all_lines. change (nl ++ b) with (String LF b). now rewrite split_char_app, map_app. Qed.
Lemma all_lines_one s : sforall (fun x => negb (Ascii.eqb x LF)) s = true -> strip_cr s = s -> all_lines s = [s].
Proof. intros F C. unfold all_lines. rewrite split_char_none by exact F. cbn. now rewrite C. Qed.

(** ** Blank text *)
Lemma trim_start_nil p s : trim_start_by p s = "" -> sforall p s = true.
Proof. induction s as [|c s IH]; [reflexivity|]. cbn. destruct (p c); [exact IH|discriminate]. Qed.
Lemma trim_nil s : trim s = "" -> sforall is_ws s = true.
Proof.
  unfold trim, trim_end_by. intros H. assert (E : trim_start_by is_ws (srev (trim_start_by is_ws s)) = "") by (rewrite <- (srev_involutive (trim_start_by _ _)), H; reflexivity).
  apply trim_start_nil in E. rewrite sforall_srev in E. revert E. generalize s at 1 2. intros t. induction t as [|c t IH]; [reflexivity|]. cbn. destruct (is_ws c) eqn:W; [exact IH|]. cbn. now rewrite W.
Qed.
Lemma not_blank a x b : sforall is_ws x = false -> blank_text (a ++ x ++ b) = false.
Proof.
  intros X. unfold blank_text. destruct (String.eqb_spec (trim (a ++ x ++ b)) "") as [E|]; [|reflexivity]. apply trim_nil in E. rewrite !sforall_app, X in E. rewrite andb_false_r in E. discriminate.
Qed.

(** ** The largest id *)
Definition free_of (p x y : string) : Prop := forall u c w, x = u ++ String c w -> starts_with p (String c w ++ y) = false.
Lemma split_free p x y : free_of p x y -> split_once p (x ++ y) = match split_once p y with Some (a, b) => Some (x ++ a, b) | None => None end.
Proof.
  induction x as [|c x IH]; intros F; [cbn; now destruct (split_once p y) as [[a b]|]|]. change (String c x ++ y) with (String c (x ++ y)). cbn [split_once].
  destruct (strip_prefix p (String c (x ++ y))) as [r|] eqn:S.
  - exfalso. apply strip_prefix_iff in S. specialize (F "" c x eq_refl). change (String c x ++ y) with (String c (x ++ y)) in F. rewrite S, starts_with_app in F. discriminate.
  - rewrite IH; [destruct (split_once p y) as [[a b]|]; reflexivity|]. intros u d w E. apply (F (String c u) d w). cbn. now rewrite E.
Qed.
Lemma starts_app p a s : starts_with (p ++ a) s = true -> starts_with p s = true.
Proof. intros H. apply starts_with_iff in H. destruct H as (t & ->). rewrite sapp_assoc. apply starts_with_app. Qed.
Lemma free_pre key pfx pre r : once key = true -> absent key pre -> free_of (key ++ pfx) pre (key ++ r).
Proof.
  intros O A u c w ->. destruct (starts_with (key ++ pfx) (String c w ++ key ++ r)) eqn:S; [|reflexivity]. exfalso. apply starts_app in S. apply starts_with_iff in S. destruct S as (t & S).
  destruct (prefix_cases _ _ _ _ S) as [(z & Z)|(z & Z & N & T)].
  - apply (A u z). now rewrite Z.
  - rewrite Z in O, T. cbn in O. destruct z as [|d z]; [congruence|]. cbn in T. injection T as X _. subst d. rewrite sforall_app in O. apply andb_prop in O as [_ O]. cbn in O. now rewrite Ascii.eqb_refl in O.
Qed.
Definition noquote (s : string) : bool := sforall (fun c => negb (Ascii.eqb c """")) s.
Lemma prefix_unquoted k : forall v r t, noquote k = true -> noquote v = true -> v ++ """" ++ r = k ++ """" ++ t -> v = k /\ r = t.
Proof.
  induction k as [|c k IH]; intros v r t K V E.
  - destruct v as [|d v]; cbn in E; [injection E as ->; now split|]. injection E as -> _. cbn in V. discriminate.
  - cbn in K. apply andb_prop in K as [C K]. destruct v as [|d v]; cbn in E; [injection E as <- _; discriminate|]. cbn in V. apply andb_prop in V as [_ V]. injection E as -> E.
    destruct (IH v r t K V E) as [-> ->]. now split.
Qed.
Lemma noquote_prefix p : forall v r, noquote p = true -> noquote v = true -> starts_with p (v ++ """" ++ r) = true -> starts_with p v = true.
Proof.
  intros v r P V S. apply starts_with_iff in S. destruct S as (t & S). destruct (prefix_cases p v ("""" ++ r) t S) as [(u & ->)|(u & -> & N & T)]; [apply starts_with_app|].
  destruct u as [|c u]; [congruence|]. cbn in T. injection T as <- _. unfold noquote in P. rewrite sforall_app in P. apply andb_prop in P as [_ P]. discriminate.
Qed.
(** The numbers in a list of quoted texts. *)
Fixpoint numbers (pfx : string) (l : list string) : list N :=
  match l with
  | [] => []
  | v :: l => match strip_prefix pfx v with
              | Some w => match parse_uint u32_max w with Some i => i :: numbers pfx l | None => numbers pfx l end
              | None => numbers pfx l
              end
  end.
Lemma find_max_exact k pfx s l : noquote k = true -> noquote pfx = true -> k <> "" -> once (k ++ """") = true -> quoted (k ++ """") pfx s l ->
  forall fuel m, String.length s < fuel -> find_max fuel ((k ++ """") ++ pfx) s m = fold_left N.max (numbers pfx l) m.
Proof.
  intros NK NP NE O. induction 1 as [s A|pre v rest l A U R Q IH]; intros fuel m L.
  - destruct fuel as [|fuel]; [lia|]. cbn [find_max]. replace (split_once ((k ++ """") ++ pfx) s) with (@None (string * string)); [reflexivity|].
    symmetry. apply split_once_none. intros a b E. apply (A a (pfx ++ b)). now rewrite E, !sapp_assoc.
  - destruct fuel as [|fuel]; [lia|]. cbn [find_max numbers]. change dq with """" in *.
  assert (LR : String.length rest < fuel) by (rewrite !app_len in L; cbn in L; lia).
  rewrite (split_free _ pre) by (now apply free_pre).
  destruct (starts_with pfx v) eqn:S.
  + apply starts_with_iff in S. destruct S as (w & ->). rewrite strip_prefix_app.
    replace ((k ++ """") ++ (pfx ++ w) ++ """" ++ rest) with (((k ++ """") ++ pfx) ++ (w ++ """" ++ rest)) by now rewrite !sapp_assoc.
    assert (SP : split_once ((k ++ """") ++ pfx) (((k ++ """") ++ pfx) ++ w ++ """" ++ rest) = Some ("", w ++ """" ++ rest)).
    { generalize ((k ++ """") ++ pfx), (w ++ """" ++ rest). intros a b. destruct (a ++ b) as [|c z] eqn:Z; cbn [split_once]; rewrite <- Z, strip_prefix_app; reflexivity. }
    rewrite SP. assert (UW : unquoted w). { unfold unquoted in U. rewrite sforall_app in U. now apply andb_prop in U as [_ U]. }
    rewrite unquoted_split by exact UW. destruct (parse_uint u32_max w); cbn [fold_left]; now apply IH.
  + assert (P : pfx <> "") by (intros ->; discriminate). destruct R as [R|R]; [contradiction|].
    assert (SN : strip_prefix pfx v = None). { destruct (strip_prefix pfx v) eqn:T; [|reflexivity]. apply strip_prefix_iff in T. rewrite T, starts_with_app in S. discriminate. }
    rewrite SN.
    assert (F : free_of ((k ++ """") ++ pfx) ((k ++ """") ++ v ++ """") rest).
    { intros u c w E. destruct (starts_with ((k ++ """") ++ pfx) (String c w ++ rest)) eqn:T; [|reflexivity]. exfalso. apply starts_with_iff in T. destruct T as (t & T). rewrite !sapp_assoc in T.
      symmetry in E. destruct (prefix_cases (k ++ """") u (String c w) (v ++ """") E) as [(z & ->)|(z & Z & N & T2)].
      - (* inside v *) rewrite sapp_assoc in E. apply sapp_inv_head in E. 
        assert (NV : exists v2, String c w = v2 ++ """" /\ noquote v2 = true).
        { destruct (prefix_cases v z (String c w) """" E) as [(y & ->)|(y & -> & Y & TY)].
          - rewrite sapp_assoc in E. apply sapp_inv_head in E. destruct y as [|d y]; cbn in E; [exists ""; split; [exact E|reflexivity]|]. injection E as _ E. destruct y; discriminate.
          - exists y. split; [exact TY|]. unfold unquoted in U. rewrite sforall_app in U. now apply andb_prop in U as [_ U]. }
        destruct NV as (v2 & EV & NV). rewrite EV, sapp_assoc in T. destruct (prefix_unquoted k v2 rest (pfx ++ t) NK NV T) as [_ ->]. now rewrite starts_with_app in R.
      - (* at or in the key *) destruct u as [|d u].
        + cbn in Z. subst z. cbn [append] in T2. rewrite <- T2 in E. clear E. rewrite T2 in T. rewrite !sapp_assoc in T. apply sapp_inv_head in T. apply sapp_inv_head in T.
          assert (ST : starts_with pfx v = true). { apply (noquote_prefix pfx v rest NP U). rewrite T. apply starts_with_app. } congruence.
        + destruct z as [|e z]; [congruence|]. cbn in T2. injection T2 as <- T2. destruct k as [|k0 k]; [congruence|]. cbn in T. injection T as -> _. cbn in Z. injection Z as -> Z.
          cbn in O. rewrite Z, sforall_app in O. apply andb_prop in O as [_ O]. cbn in O. now rewrite Ascii.eqb_refl in O. }
    replace ((k ++ """") ++ v ++ """" ++ rest) with (((k ++ """") ++ v ++ """") ++ rest) by now rewrite !sapp_assoc.
    rewrite split_free by exact F. rewrite <- (IH (Datatypes.S fuel) m) by lia. cbn [find_max]. destruct (split_once ((k ++ """") ++ pfx) rest) as [[a b]|]; reflexivity.
Qed.
Lemma fold_max l : forall m, (m <= fold_left N.max l m)%N /\ (forall i, In i l -> (i <= fold_left N.max l m)%N) /\ (fold_left N.max l m = m \/ In (fold_left N.max l m) l).
Proof.
  induction l as [|x l IH]; intros m; cbn [fold_left]; [split; [reflexivity|]; split; [contradiction|now left]|].
  destruct (IH (N.max m x)) as (A & B & C). split; [lia|]. split; [intros i [<-|I]; [lia|now apply B]|].
  destruct C as [C|C]; [|right; now right]. rewrite C. destruct (N.max_spec m x) as [[_ ->]|[_ ->]]; [right; now left|now left].
Qed.
Lemma numbers_in pfx l i : In i (numbers pfx l) <-> numbered pfx l i.
Proof.
  induction l as [|v l IH]; cbn [numbers].
  - split; [contradiction|]. intros (w & [] & _).
  - assert (S : numbered pfx (v :: l) i <-> (exists w, v = pfx ++ w /\ parse_uint u32_max w = Some i) \/ numbered pfx l i).
    { split; [intros (w & [E|I] & P); [left; now exists w|right; now exists w]|intros [(w & -> & P)|(w & I & P)]; exists w; split; auto; [now left|now right]]. }
    rewrite S, <- IH. destruct (strip_prefix pfx v) as [w|] eqn:E.
    + apply strip_prefix_iff in E. subst v. assert (X : (exists w0, pfx ++ w = pfx ++ w0 /\ parse_uint u32_max w0 = Some i) <-> parse_uint u32_max w = Some i).
      { split; [intros (w0 & E & P); apply sapp_inv_head in E; now subst|intros P; now exists w]. }
      rewrite X. destruct (parse_uint u32_max w) as [j|]; cbn [In]; [split; intros [H|H]; auto; left; congruence|]. split; [tauto|]. intros [H|H]; [discriminate|exact H].
    + split; [tauto|]. intros [(w & -> & _)|H]; [|exact H]. now rewrite strip_prefix_app in E.
Qed.
Lemma numbers_app pfx a b : numbers pfx (a ++ b) = (numbers pfx a ++ numbers pfx b)%list.
Proof. induction a as [|v a IH]; [reflexivity|]. cbn [app numbers]. rewrite IH. destruct (strip_prefix pfx v) as [w|]; [|reflexivity]. destruct (parse_uint u32_max w); reflexivity. Qed.
Lemma quoted_app key pfx s l c t l2 : quoted key pfx s l -> quoted key pfx (String c t) l2 -> tail_free c key = true -> sforall (fun d => negb (Ascii.eqb d c)) pfx = true ->
  quoted key pfx (s ++ String c t) (l ++ l2).
Proof.
  intros Q T F P. induction Q as [s A|pre v rest l A U R Q IH].
  - cbn [app]. remember (String c t) as x eqn:X. destruct T as [x B|pre v rest l B U R T].
    + constructor. subst x. now apply absent_join.
    + rewrite <- sapp_assoc. constructor; try assumption. destruct pre as [|d pre]; [now rewrite sapp_nil_r|]. cbn in X. injection X as -> _. now apply absent_join.
  - cbn [app]. rewrite !sapp_assoc. constructor; try assumption. destruct R as [R|R]; [now left|right]. destruct (starts_with pfx (rest ++ String c t)) eqn:S; [|reflexivity].
    apply starts_with_iff in S. destruct S as (z & S). destruct (prefix_cases _ _ _ _ S) as [(u & ->)|(u & -> & N & E)]; [now rewrite starts_with_app in R|].
    destruct u as [|d u]; [congruence|]. cbn in E. injection E as <- _. rewrite sforall_app in P. apply andb_prop in P as [_ P]. cbn in P. now rewrite Ascii.eqb_refl in P.
Qed.
