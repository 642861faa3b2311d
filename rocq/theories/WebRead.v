(** What is read from a web page. *)
From Coq Require Import String Ascii List Bool Arith NArith Lia.
From Verif Require Import Str StrRefl ValidProofs FlowText WebModel WebSpec.
Import ListNotations.
Open Scope nat_scope.
Open Scope string_scope.

(** ** Words *)
Lemma words_gap g : gap g -> forall x, words_of (g ++ x) = words_of x.
Proof.
  unfold gap. induction g as [|c g IH]; intros G x; [reflexivity|]. cbn in G. apply andb_prop in G as [C G].
  change (String c g ++ x) with (String c (g ++ x)). unfold words_of in *. cbn [split_ws]. rewrite C. cbn [filter String.eqb negb]. now apply IH.
Qed.
Lemma split_word w : sforall (fun c => negb (is_ws c)) w = true -> forall r, split_ws (w ++ r) = match split_ws r with x :: l => (w ++ x) :: l | [] => [w] end.
Proof.
  induction w as [|c w IH]; intros H r; [cbn; destruct (split_ws r) eqn:E; [destruct r as [|a r]; [discriminate|cbn in E; destruct (is_ws a); [discriminate|destruct (split_ws r); discriminate]]|change ("" ++ r) with r; now rewrite E]|].
  cbn in H. apply andb_prop in H as [C H]. apply negb_true_iff in C. change (String c w ++ r) with (String c (w ++ r)). cbn [split_ws]. rewrite C, (IH H). now destruct (split_ws r).
Qed.
Lemma spaced_words s ws : spaced s ws -> words_of s = ws.
Proof.
  induction 1 as [g G|g w rest ws G [NE W] R _ IH].
  - rewrite <- (sapp_nil_r g) at 1. rewrite (words_gap g G). reflexivity.
  - rewrite (words_gap g G). unfold words_of in *. rewrite (split_word w W). destruct rest as [|c r].
    + cbn in IH. subst ws. cbn [split_ws]. rewrite sapp_nil_r. cbn [filter]. destruct w; [congruence|reflexivity].
    + cbn [split_ws] in *. rewrite R in *. cbn [filter String.eqb negb] in IH. rewrite IH, sapp_nil_r || (rewrite sapp_nil_r; cbn [filter]; rewrite IH). cbn [filter]. destruct w; [congruence|reflexivity].
Qed.
Lemma spaced_each s ws : spaced s ws -> Forall word ws.
Proof. induction 1; constructor; assumption. Qed.
Lemma snoc_of s : s <> "" -> exists x c, s = x ++ s1 c.
Proof.
  induction s as [|c s IH]; [congruence|intros _]. destruct s as [|d s]; [exists "", c; reflexivity|]. destruct IH as (x & e & E); [discriminate|]. exists (String c x), e. now rewrite E.
Qed.
Lemma word_solid w : word w -> solid w.
Proof.
  intros [NE W]. split.
  - destruct w as [|c x]; [congruence|]. exists c, x. split; [reflexivity|]. cbn in W. apply andb_prop in W as [C _]. now apply negb_true_iff.
  - destruct (snoc_of w NE) as (x & c & E). exists c, x. split; [exact E|]. rewrite E, sforall_app in W. apply andb_prop in W as [_ W]. cbn in W. apply andb_prop in W as [C _]. now apply negb_true_iff.
Qed.
Lemma join_solid ws : Forall word ws -> ws <> [] -> solid (sjoin " " ws).
Proof.
  induction 1 as [|w ws W F IH]; [congruence|intros _]. destruct ws as [|v ws]; [now apply word_solid|]. destruct (word_solid w W) as [(c & x & E & C) _]. destruct (IH ltac:(discriminate)) as [_ (d & y & G & D)].
  change (sjoin " " (w :: v :: ws)) with (w ++ " " ++ sjoin " " (v :: ws)). split.
  - exists c, (x ++ " " ++ sjoin " " (v :: ws)). rewrite E. split; [reflexivity|exact C].
  - exists d, (w ++ " " ++ y). rewrite G. split; [now rewrite !sapp_assoc|exact D].
Qed.
Lemma join_trim ws : Forall word ws -> trim (sjoin " " ws) = sjoin " " ws.
Proof. intros F. destruct ws as [|w ws]; [reflexivity|]. apply trim_solid, join_solid; [exact F|discriminate]. Qed.
Lemma says_clean d t : says d t -> clean_text d = t /\ trim t = t.
Proof.
  intros (ws & S & ->). unfold clean_text. rewrite (spaced_words _ _ S). pose proof (join_trim ws (spaced_each _ _ S)) as T. now rewrite T.
Qed.
Lemma trim_start_head p s : match trim_start_by p s with "" => True | String c _ => p c = false end.
Proof. induction s as [|c s IH]; [exact I|]. cbn. destruct (p c) eqn:E; [exact IH|exact E]. Qed.
Lemma trim_trim s : trim (trim s) = trim s.
Proof.
  unfold trim at 2 3. pose proof (trim_start_head is_ws s) as H. set (u := trim_start_by is_ws s) in *. clearbody u.
  unfold trim_end_by. pose proof (trim_start_head is_ws (srev u)) as K. set (v := trim_start_by is_ws (srev u)) in *.
  destruct v as [|c v'] eqn:E; [reflexivity|]. apply trim_solid. split.
  - assert (P : exists x, u = srev (String c v') ++ x).
    { clear -E. subst v. rewrite <- E. clear. assert (Q : exists y, srev u = y ++ trim_start_by is_ws (srev u)).
      { induction (srev u) as [|d r (y & IH)]; [exists ""; reflexivity|]. cbn [trim_start_by]. destruct (is_ws d); [exists (String d y); rewrite IH at 1; reflexivity|exists ""; reflexivity]. }
      destruct Q as (y & Q). exists (srev y). rewrite <- srev_sapp, <- Q. now rewrite srev_involutive. }
    destruct P as (x & P). destruct (srev (String c v')) as [|d r] eqn:S.
    + apply (f_equal srev) in S. rewrite srev_involutive in S. discriminate.
    + rewrite P in H. cbn in H. exists d, r. split; [reflexivity|exact H].
  - exists c, (srev v'). split; [|exact K]. change (String c v') with (s1 c ++ v'). now rewrite srev_sapp.
Qed.

(** ** Trees *)
Section DomInd.
Variable P : dom -> Prop.
Hypothesis HT : forall t, P (Text t).
Hypothesis HS : P Silent.
Hypothesis HE : forall n a k, Forall P k -> P (Elem n a k).
Fixpoint dom_all (d : dom) : P d :=
  match d with
  | Text t => HT t
  | Silent => HS
  | Elem n a k => HE n a k ((fix go (l : list dom) : Forall P l := match l with [] => @List.Forall_nil dom P | x :: l => @List.Forall_cons dom P x l (dom_all x) (go l) end) k)
  end.
End DomInd.
Definition picked (names : list string) (d : dom) : bool := match d with Elem n _ _ => one_among names n | _ => false end.
Lemma one_in l n : one_among l n = true <-> In n l.
Proof. unfold one_among. rewrite existsb_exists. split; [intros (x & I & E); apply String.eqb_eq in E; now subst|intros I; exists n; split; [exact I|apply String.eqb_refl]]. Qed.
Lemma one_out l n : ~ In n l -> one_among l n = false.
Proof. intros H. destruct (one_among l n) eqn:E; [apply one_in in E; contradiction|reflexivity]. Qed.
Lemma filter_flat {A B} (f : B -> bool) (g : A -> list B) l : filter f (flat_map g l) = flat_map (fun x => filter f (g x)) l.
Proof. induction l as [|x l IH]; [reflexivity|]. cbn [flat_map]. now rewrite filter_app, IH. Qed.
Lemma map_flat {A B C} (f : B -> C) (g : A -> list B) l : map f (flat_map g l) = flat_map (fun x => map f (g x)) l.
Proof. induction l as [|x l IH]; [reflexivity|]. cbn [flat_map]. now rewrite map_app, IH. Qed.
Lemma flat_nil {A B} (g : A -> list B) l : Forall (fun x => g x = []) l -> flat_map g l = [].
Proof. induction 1 as [|x l E _ IH]; [reflexivity|]. cbn. now rewrite E, IH. Qed.
Lemma flat_concat {A B} (g : A -> list B) l ls : Forall2 (fun x y => g x = y) l ls -> flat_map g l = concat ls.
Proof. induction 1 as [|x y l ls E _ IH]; [reflexivity|]. cbn. now rewrite E, IH. Qed.
Lemma none_below d : all_below (fun d => named ["td"; "th"; "tr"] d = false) d -> forall names, (forall n, In n names -> In n ["td"; "th"; "tr"]) -> filter (picked names) (tl (subtree d)) = [].
Proof.
  induction d as [t| |n a k IH] using dom_all; intros A names N; try reflexivity. inversion A as [| |n' a' k' F E]; subst. cbn [subtree tl]. rewrite filter_flat. apply flat_nil.
  rewrite Forall_forall in *. intros d D. destruct (F d D) as [M B]. specialize (IH d D B names N). destruct d as [t|m b l|]; [reflexivity| |reflexivity].
  cbn [subtree tl] in IH |- *. cbn [filter picked]. rewrite IH. destruct (one_among names m) eqn:O; [|reflexivity]. apply one_in, N, one_in in O. cbn in M. unfold one_among in O. cbn in O. congruence.
Qed.
Lemma cells_found d cs : cells_in d cs -> map clean_text (filter (picked ["th"; "td"]) (subtree d)) = cs /\ filter (picked ["tr"]) (subtree d) = [].
Proof.
  revert cs. induction d as [t| |n a k IH] using dom_all; intros cs C; inversion C as [| |n' a' k' t' I B S|n' a' k' l I F]; subst; try (split; reflexivity).
  - destruct (says_clean _ _ S) as [CL _]. pose proof (none_below _ B) as NB. cbn [subtree tl] in NB. cbn [subtree]. assert (O : one_among ["th"; "td"] n = true) by (apply one_in; cbn in *; tauto). cbn [filter picked]. rewrite O, !NB; [|cbn; tauto|cbn; tauto].
    cbn [map]. rewrite CL. split; [reflexivity|]. rewrite one_out; [reflexivity|]. intros [<-|[]]. cbn in I. destruct I as [I|[I|[]]]; discriminate.
  - cbn [subtree filter picked]. rewrite !one_out by (cbn in *; tauto). rewrite !filter_flat, map_flat. split.
    + apply flat_concat. clear -IH F. induction F as [|x y k l H F IHF]; constructor; inversion IH; subst; [now apply H2|now apply IHF].
    + apply flat_nil. clear -IH F. induction F as [|x y k l H F IHF]; constructor; inversion IH; subst; [now apply (H2 y)|now apply IHF].
Qed.
Lemma rows_found d rs : rows_in d rs -> map (fun r => map clean_text (select ["th"; "td"] r)) (filter (picked ["tr"]) (subtree d)) = rs.
Proof.
  revert rs. induction d as [t| |n a k IH] using dom_all; intros rs C; inversion C as [| |a' k' cs F|n' a' k' l I F]; subst; try reflexivity.
  - cbn [subtree filter picked one_among existsb String.eqb Ascii.eqb Bool.eqb orb]. rewrite filter_flat. rewrite (flat_nil (fun x => filter (picked ["tr"]) (subtree x))).
    + cbn [map]. f_equal. unfold select. cbn [subtree tl]. fold (picked ["th"; "td"]). rewrite filter_flat, map_flat. apply flat_concat. clear -F. induction F as [|x y k l H F IHF]; constructor; [now apply cells_found|exact IHF].
    + clear -F. induction F as [|x y k l H F IHF]; constructor; [now apply (cells_found x y)|exact IHF].
  - cbn [subtree filter picked]. rewrite one_out by (cbn; intuition congruence). rewrite filter_flat, map_flat. apply flat_concat.
    clear -IH F. induction F as [|x y k l H F IHF]; constructor; inversion IH; subst; [now apply H2|now apply IHF].
Qed.
Lemma table_found a k rs rows : Forall2 rows_in k rs -> rows = filled_rows (concat rs) -> rows <> [] -> length rows <= 30 -> extract_table (Elem "table" a k) = [block_new (WTable rows) ""].
Proof.
  intros F E NE L. unfold extract_table.
  assert (R : filter (fun r => match r with [] => false | _ => true end) (map (fun r => map clean_text (select ["th"; "td"] r)) (select ["tr"] (Elem "table" a k))) = rows).
  { rewrite E. unfold filled_rows. f_equal. unfold select at 2. cbn [subtree tl]. fold (picked ["tr"]). rewrite filter_flat, map_flat.
    apply flat_concat. clear -F. induction F as [|x y k l H F IHF]; constructor; [now apply rows_found|exact IHF]. }
  rewrite R. apply Nat.leb_le in L. rewrite L. destruct rows; [congruence|reflexivity].
Qed.

(** ** The walk *)
Lemma item_walk c depth n a k it : noise a = false -> holds (Elem n a k) it -> Forall2 stands (filter (wants c) [it]) (walk_element c depth (Elem n a k)).
Proof.
  intros N H.
  assert (X : forall m b, In m no_recurse_tags -> own_block c depth m a (Elem m a k) = b -> walk_element c depth (Elem m a k) = b).
  { intros m b M E. cbn [walk_element]. assert (S : skipped m a = false).
    { unfold skipped. fold (noise a). change (match attr_of "class" a with Some v => existsb (fun w => contains w (ShapeModel.lowercase v)) skip_classes | None => false end) with (noise a). rewrite N, orb_false_r. clear -M. cbn in M.
      repeat (destruct M as [<-|M]; [reflexivity|]). destruct M. }
    rewrite S, E. apply one_in in M. rewrite M. apply app_nil_r. }
  inversion H as [n' l a' k' t I S NE L|a' k' t S L|a' k' t S NE L|a' k' t S NE|n' a' k' t I E NE L|a' k' src alt S A D NE|a' k' rs rows F E NE L]; subst.
  - destruct (says_clean _ _ S) as [CL T]. rewrite (X n [Block (if Nat.eqb l 1 then WTitle else WHeading (N.of_nat l)) t 0]).
    + cbn [filter wants]. constructor; [|constructor]. cbn [stands wb_kind wb_text]. destruct l as [|[|l]]; try (split; reflexivity).
    + cbn in I. cbn. intuition (try congruence).
    + apply Nat.ltb_lt in L. assert (Q : String.eqb t "" = false) by now apply String.eqb_neq.
      cbn in I; repeat (destruct I as [I|I]; [injection I as <- <-; unfold own_block; cbn [String.eqb Ascii.eqb Bool.eqb one_among existsb orb]; cbv zeta; rewrite CL, Q, L; cbn [negb andb]; unfold block_new; now rewrite T|]); destruct I.
  - destruct (says_clean _ _ S) as [CL T]. rewrite (X "p" [Block WPara t 0]).
    + constructor; [split; reflexivity|constructor].
    + now left.
    + apply Nat.leb_le in L. unfold own_block. cbn [String.eqb Ascii.eqb Bool.eqb one_among existsb orb]. cbv zeta. rewrite CL, L. unfold block_new. now rewrite T.
  - destruct (says_clean _ _ S) as [CL T]. rewrite (X "li" [Block WItem t depth]).
    + constructor; [split; reflexivity|constructor].
    + cbn; tauto.
    + apply Nat.ltb_lt in L. apply String.eqb_neq in NE. unfold own_block. cbn [String.eqb Ascii.eqb Bool.eqb one_among existsb orb]. cbv zeta. rewrite CL, L, NE. cbn [negb andb]. now rewrite T.
  - destruct (says_clean _ _ S) as [CL T]. rewrite (X "blockquote" [Block WQuote t 0]).
    + constructor; [split; reflexivity|constructor].
    + cbn; tauto.
    + apply String.eqb_neq in NE. unfold own_block. cbn [String.eqb Ascii.eqb Bool.eqb one_among existsb orb]. cbv zeta. rewrite CL, NE. cbn [negb andb]. unfold block_new. now rewrite T.
  - rewrite (X n (if with_code c then [Block WCode (trim (text_of (Elem n a k))) 0] else [])).
    + cbn [filter wants]. destruct (with_code c); [|constructor]. constructor; [split; reflexivity|constructor].
    + cbn in *. intuition congruence.
    + apply Nat.leb_le in L. apply String.eqb_neq in NE. unfold own_block.
      cbn in I; destruct I as [<-|[<-|[]]]; cbn [String.eqb Ascii.eqb Bool.eqb one_among existsb orb]; (destruct (with_code c); [|reflexivity]); cbv zeta; rewrite NE, L; cbn [negb andb]; unfold block_new; now rewrite trim_trim.
  - rewrite (X "img" (if with_images c then [Block (WImage src alt) "" 0] else [])).
    + cbn [filter wants]. destruct (with_images c); constructor; [reflexivity|constructor].
    + cbn; tauto.
    + apply String.eqb_neq in NE. unfold own_block. cbn [String.eqb Ascii.eqb Bool.eqb one_among existsb orb]. destruct (with_images c); [|reflexivity]. rewrite S, A. cbv zeta. now rewrite D, NE.
  - rewrite (X "table" (if with_tables c then [block_new (WTable (filled_rows (concat rs))) ""] else [])).
    + cbn [filter wants]. destruct (with_tables c); constructor; [reflexivity|constructor].
    + cbn; tauto.
    + unfold own_block. cbn [String.eqb Ascii.eqb Bool.eqb one_among existsb orb]. destruct (with_tables c); [|reflexivity]. now apply (table_found a k rs).
Qed.
Lemma page_walk c d its : on_page d its -> forall depth, Forall2 stands (filter (wants c) its) (walk_element c depth d).
Proof.
  revert its. induction d as [t| |n a k IH] using dom_all; intros its C depth; inversion C as [| |n' a' k' I|n' a' k' I|n' a' k' it N H|n' a' k' l N M B F]; subst; try constructor.
  - cbn [walk_element]. unfold skipped. apply (one_in skip_tags) in I. rewrite I. constructor.
  - cbn [walk_element]. unfold skipped. change (match attr_of "class" a with Some v => existsb (fun w => contains w (ShapeModel.lowercase v)) skip_classes | None => false end) with (noise a). rewrite I, orb_true_r. constructor.
  - now apply item_walk.
  - cbn [walk_element]. unfold skipped. change (match attr_of "class" a with Some v => existsb (fun w => contains w (ShapeModel.lowercase v)) skip_classes | None => false end) with (noise a). rewrite N, (one_out skip_tags n M). cbn [orb].
    assert (R : one_among no_recurse_tags n = false) by (apply one_out; intros J; apply B; cbn in *; tauto). rewrite R.
    assert (O : own_block c depth n a (Elem n a k) = []).
    { unfold own_block. assert (Q : forall m, In m bearing -> String.eqb n m = false) by (intros m J; apply String.eqb_neq; intros <-; contradiction).
      unfold one_among. cbn [existsb]. rewrite !Q by (cbn; tauto). reflexivity. }
    rewrite O. cbn [app]. clear -IH F. set (dp := ((depth + 1) mod 256)%N). clearbody dp. induction F as [|x y k l H F IHF]; [constructor|]. inversion IH; subst. cbn [concat flat_map]. rewrite filter_app. apply Forall2_app; [now apply H2|now apply IHF].
Qed.

(** ** The whole page *)
Lemma area_fold (found : string -> option dom) l : forall r, fold_left (fun r s => match r with Some _ => r | None => match found s with Some e => if Nat.ltb 100 (String.length (text_of e)) then Some e else None | None => None end end) l (Some r) = Some r.
Proof. induction l as [|x l IH]; intros r; [reflexivity|]. apply IH. Qed.
Lemma area_found found m : main_part found m -> main_element found = Some m.
Proof.
  intros (before & s & after & E & F & L & P). unfold main_element. change main_selectors with areas. rewrite E, fold_left_app.
  assert (Z : forall l, (forall p d, In p l -> found p = Some d -> ~ long_enough d) -> fold_left (fun r s => match r with Some _ => r | None => match found s with Some e => if Nat.ltb 100 (String.length (text_of e)) then Some e else None | None => None end end) l None = None).
  { induction l as [|x l IH]; intros Q; [reflexivity|]. cbn [fold_left]. assert (N : match found x with Some e => if Nat.ltb 100 (String.length (text_of e)) then Some e else None | None => None end = None).
    { destruct (found x) as [e|] eqn:X; [|reflexivity]. pose proof (Q x e (or_introl eq_refl) X) as QQ. unfold long_enough in QQ. destruct (Nat.ltb_spec 100 (String.length (text_of e))); [contradiction|reflexivity]. }
    rewrite N. apply IH. intros p d I. apply Q. now right. }
  rewrite (Z before P). cbn [fold_left]. rewrite F. unfold long_enough in L. apply Nat.ltb_lt in L. rewrite L. apply area_fold.
Qed.
Lemma title_found found : titled found (extract_title found).
Proof.
  unfold extract_title, text_title, titled, nonblank_text, no_text. destruct (found "title") as [d|].
  - destruct (String.eqb (trim (text_of d)) "") eqn:E; [|left; exists d; repeat split; now apply String.eqb_neq].
    right. apply String.eqb_eq in E. destruct (found "h1") as [h|].
    + destruct (String.eqb (trim (text_of h)) "") eqn:G; [|left; split; [intros ? [= <-]; exact E|exists h; repeat split; now apply String.eqb_neq]].
      apply String.eqb_eq in G. right. split; [intros ? [= <-]; exact E|]. split; [intros ? [= <-]; exact G|].
      destruct (found "meta[property='og:title']") as [[t|n a k|]|]; cbn [meta_content]; try (right; split; [congruence|reflexivity]).
      destruct (attr_of "content" a) as [v|] eqn:V; [left; exists n, a, k, v; now rewrite V|right; split; [intros ? ? ? [= <- <- <-]; exact V|reflexivity]].
    + right. split; [intros ? [= <-]; exact E|]. split; [discriminate|].
      destruct (found "meta[property='og:title']") as [[t|n a k|]|]; cbn [meta_content]; try (right; split; [congruence|reflexivity]).
      destruct (attr_of "content" a) as [v|] eqn:V; [left; exists n, a, k, v; now rewrite V|right; split; [intros ? ? ? [= <- <- <-]; exact V|reflexivity]].
  - right. destruct (found "h1") as [h|].
    + destruct (String.eqb (trim (text_of h)) "") eqn:G; [|left; split; [discriminate|exists h; repeat split; now apply String.eqb_neq]].
      apply String.eqb_eq in G. right. split; [discriminate|]. split; [intros ? [= <-]; exact G|].
      destruct (found "meta[property='og:title']") as [[t|n a k|]|]; cbn [meta_content]; try (right; split; [congruence|reflexivity]).
      destruct (attr_of "content" a) as [v|] eqn:V; [left; exists n, a, k, v; now rewrite V|right; split; [intros ? ? ? [= <- <- <-]; exact V|reflexivity]].
    + right. split; [discriminate|]. split; [discriminate|].
      destruct (found "meta[property='og:title']") as [[t|n a k|]|]; cbn [meta_content]; try (right; split; [congruence|reflexivity]).
      destruct (attr_of "content" a) as [v|] eqn:V; [left; exists n, a, k, v; now rewrite V|right; split; [intros ? ? ? [= <- <- <-]; exact V|reflexivity]].
Qed.
Lemma meta_found found sel : match meta_text found sel with Some t => meta_says found sel t | None => forall u, ~ meta_says found sel u end.
Proof.
  unfold meta_text, meta_says. destruct (found sel) as [[t|n a k|]|]; cbn [meta_content]; try (intros u (? & ? & ? & ? & E & _); discriminate).
  destruct (attr_of "content" a) as [v|] eqn:V.
  - cbv zeta. destruct (String.eqb (trim v) "") eqn:E.
    + intros u (n' & a' & k' & v' & [= <- <- <-] & V' & -> & NE). apply NE. apply String.eqb_eq in E. congruence.
    + exists n, a, k, v. repeat split; [exact V|]. now apply String.eqb_neq.
  - intros u (n' & a' & k' & v' & [= <- <- <-] & V' & _). congruence.
Qed.
Lemma description_found found : described found (extract_meta_description found).
Proof.
  unfold extract_meta_description. pose proof (meta_found found "meta[name='description']") as A. pose proof (meta_found found "meta[property='og:description']") as B.
  destruct (meta_text found "meta[name='description']") as [t|]; [left; exact A|]. destruct (meta_text found "meta[property='og:description']") as [t|]; [right; split; assumption|]. intros u. split; [apply A|apply B].
Qed.
Lemma page_parsed c found url m its : main_part found m -> on_page m its -> filter (wants c) its <> [] ->
  exists w, parse c found url = Some w /\ titled found (w_title w) /\ described found (w_description w) /\ w_url w = url /\ Forall2 stands (filter (wants c) its) (w_blocks w)
    /\ forall X o, html_to_pptx c X found url o = Some (convert c X w o).
Proof.
  intros M P NE. unfold html_to_pptx, parse. rewrite (area_found found m M). pose proof (page_walk c m its P 0%N) as W. destruct (walk_element c 0 m) as [|b l].
  - inversion W as [E|]. congruence.
  - eexists. split; [reflexivity|]. split; [apply title_found|]. split; [apply description_found|]. split; [reflexivity|]. split; [exact W|reflexivity].
Qed.
(** ** A page without anything to show is refused *)
Lemma page_empty c found url m its : main_part found m -> on_page m its -> filter (wants c) its = [] -> parse c found url = None.
Proof. intros M P E. unfold parse. rewrite (area_found found m M). pose proof (page_walk c m its P 0%N) as W. rewrite E in W. inversion W. reflexivity. Qed.
