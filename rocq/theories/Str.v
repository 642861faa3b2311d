(** Byte-string helpers shared by the model files.

    Rust [String]/[&str]/[Vec<u8>] are modelled as Coq [string], i.e. a list
    of bytes (the UTF-8 encoding of the text).  The functions below mirror the
    Rust standard-library calls that the modelled code makes; each comment
    names the Rust call. *)
From Coq Require Import String Ascii List Bool Arith NArith Lia DecimalString DecimalN.
Import ListNotations.
Open Scope string_scope.

(** ** Characters *)

(** [char::is_ascii_digit]. *)
Definition is_digit (c : ascii) : bool :=
  let n := N_of_ascii c in (48 <=? n)%N && (n <=? 57)%N.

(** ASCII whitespace as [str::trim] and [char::is_whitespace] see it on ASCII
    input: U+0009..U+000D and space.  Non-ASCII whitespace (U+0085, U+00A0,
    U+2028 ...) is not recognised here; files that need trimming say so. *)
Definition is_ws (c : ascii) : bool :=
  let n := N_of_ascii c in ((9 <=? n)%N && (n <=? 13)%N) || (n =? 32)%N.

Definition CR : ascii := "013"%char.
Definition LF : ascii := "010"%char.
Definition TAB : ascii := "009"%char.
Definition DQ : ascii := "034"%char.
Definition SQ : ascii := "039"%char.

Definition s1 (c : ascii) : string := String c "".

(** A one-byte string holding a double quote, and a newline. *)
Definition dq : string := s1 DQ.
Definition nl : string := s1 LF.

(** ** Folding over a string *)

Fixpoint sfold {A : Type} (f : A -> ascii -> A) (s : string) (a : A) : A :=
  match s with
  | "" => a
  | String c s' => sfold f s' (f a c)
  end.

(** [s.chars().flat_map(f).collect::<String>()], with [f] from bytes. *)
Fixpoint smap (f : ascii -> string) (s : string) : string :=
  match s with
  | "" => ""
  | String c s' => f c ++ smap f s'
  end.

(** [s.chars().all(p)], [s.chars().any(p)]. *)
Fixpoint sforall (p : ascii -> bool) (s : string) : bool :=
  match s with
  | "" => true
  | String c s' => p c && sforall p s'
  end.

Definition sexists (p : ascii -> bool) (s : string) : bool :=
  negb (sforall (fun c => negb (p c)) s).

Fixpoint sfilter (p : ascii -> bool) (s : string) : string :=
  match s with
  | "" => ""
  | String c s' => if p c then String c (sfilter p s') else sfilter p s'
  end.

(** [s.replace(c, r)] with a [char] pattern. *)
Definition replace_char (c : ascii) (r : string) (s : string) : string :=
  smap (fun x => if Ascii.eqb x c then r else s1 x) s.

(** [Vec<String>] concatenation, [parts.concat()]. *)
Definition sconcat (l : list string) : string := fold_right append "" l.

(** [parts.join(sep)]. *)
Fixpoint sjoin (sep : string) (l : list string) : string :=
  match l with
  | [] => ""
  | [x] => x
  | x :: l' => x ++ sep ++ sjoin sep l'
  end.

(** [s.starts_with(p)]. *)
Fixpoint starts_with (p s : string) : bool :=
  match p, s with
  | "", _ => true
  | String a p', String b s' => Ascii.eqb a b && starts_with p' s'
  | String _ _, "" => false
  end.

(** [s.strip_prefix(p)]. *)
Fixpoint strip_prefix (p s : string) : option string :=
  match p, s with
  | "", _ => Some s
  | String a p', String b s' => if Ascii.eqb a b then strip_prefix p' s' else None
  | String _ _, "" => None
  end.

Fixpoint srev_app (s acc : string) : string :=
  match s with
  | "" => acc
  | String c s' => srev_app s' (String c acc)
  end.

Definition srev (s : string) : string := srev_app s "".

(** [s.ends_with(p)]. *)
Definition ends_with (p s : string) : bool := starts_with (srev p) (srev s).

(** [s.find(p)]: the part before the first occurrence and the part after it
    (the occurrence itself excluded). *)
Fixpoint split_once (p s : string) : option (string * string) :=
  match strip_prefix p s with
  | Some rest => Some ("", rest)
  | None =>
      match s with
      | "" => None
      | String c s' =>
          match split_once p s' with
          | Some (a, b) => Some (String c a, b)
          | None => None
          end
      end
  end.

(** [s.contains(p)] for a string pattern. *)
Definition contains (p s : string) : bool :=
  match split_once p s with Some _ => true | None => false end.

(** [s.split(c)] with a [char] pattern: always at least one piece. *)
Fixpoint split_char (c : ascii) (s : string) : list string :=
  match s with
  | "" => [""]
  | String x s' =>
      if Ascii.eqb x c then "" :: split_char c s'
      else match split_char c s' with
           | p :: l => String x p :: l
           | [] => [s1 x]
           end
  end.

(** [s.trim_start()] and [s.trim()] on ASCII whitespace. *)
Fixpoint trim_start_by (p : ascii -> bool) (s : string) : string :=
  match s with
  | "" => ""
  | String c s' => if p c then trim_start_by p s' else s
  end.

Definition trim_end_by (p : ascii -> bool) (s : string) : string :=
  srev (trim_start_by p (srev s)).

Definition trim (s : string) : string := trim_end_by is_ws (trim_start_by is_ws s).

(** [format!("{}", n)] for an unsigned integer. *)
Definition dec (n : N) : string := NilEmpty.string_of_uint (N.to_uint n).

(** Same for a [nat]-modelled [usize]. *)
Definition decn (n : nat) : string := dec (N.of_nat n).

(** ** Basic lemmas *)

Lemma sapp_nil_r s : s ++ "" = s.
Proof. induction s; simpl; congruence. Qed.

Lemma sapp_assoc a b c : (a ++ b) ++ c = a ++ (b ++ c).
Proof. induction a; simpl; congruence. Qed.

Lemma sapp_nil_iff a b : a ++ b = "" <-> a = "" /\ b = "".
Proof. destruct a; simpl; intuition congruence. Qed.

Lemma sapp_inj_l a b c : a ++ b = a ++ c -> b = c.
Proof. induction a; simpl; intros H; [exact H|]. apply IHa. now inversion H. Qed.

Lemma slength_app a b : String.length (a ++ b) = String.length a + String.length b.
Proof. induction a; simpl; lia. Qed.

Lemma sfold_app {A} (f : A -> ascii -> A) s t a :
  sfold f (s ++ t) a = sfold f t (sfold f s a).
Proof. revert a; induction s; simpl; intros; auto. Qed.

Lemma smap_app f s t : smap f (s ++ t) = smap f s ++ smap f t.
Proof. induction s; simpl; [reflexivity|]. now rewrite IHs, sapp_assoc. Qed.

Lemma sforall_app p s t : sforall p (s ++ t) = sforall p s && sforall p t.
Proof. induction s; simpl; [reflexivity|]. now rewrite IHs, andb_assoc. Qed.

Lemma sforall_weaken (p q : ascii -> bool) s :
  (forall c, p c = true -> q c = true) -> sforall p s = true -> sforall q s = true.
Proof.
  intros H; induction s; simpl; [reflexivity|].
  rewrite !andb_true_iff; intros [? ?]; split; auto.
Qed.

Lemma sforall_smap p f s :
  (forall c, sforall p (f c) = true) -> sforall p (smap f s) = true.
Proof.
  intros H; induction s; simpl; [reflexivity|].
  rewrite sforall_app, H, IHs; reflexivity.
Qed.

Lemma smap_id f s : (forall c, sforall (fun x => Ascii.eqb x c) (s1 c) = true -> f c = s1 c) -> smap f s = s.
Proof.
  intros H; induction s as [|c s IH]; simpl; [reflexivity|].
  rewrite H, IH; [reflexivity|]. simpl. now rewrite Ascii.eqb_refl.
Qed.

Lemma smap_ext_in (p : ascii -> bool) f g s :
  (forall c, p c = true -> f c = g c) -> sforall p s = true -> smap f s = smap g s.
Proof.
  intros H; induction s as [|c s IH]; simpl; [reflexivity|].
  rewrite andb_true_iff; intros [H1 H2]. rewrite H, IH; auto.
Qed.

Lemma smap_ext f g s : (forall c, f c = g c) -> smap f s = smap g s.
Proof. intros H; induction s; simpl; congruence. Qed.

Lemma smap_smap f g s : smap g (smap f s) = smap (fun c => smap g (f c)) s.
Proof. induction s; simpl; [reflexivity|]. now rewrite smap_app, IHs. Qed.

Lemma smap_s1 s : smap s1 s = s.
Proof. induction s; simpl; congruence. Qed.

Lemma sconcat_app l l' : sconcat (l ++ l')%list = sconcat l ++ sconcat l'.
Proof. induction l; simpl; [reflexivity|]. now rewrite IHl, sapp_assoc. Qed.

Lemma srev_app_spec s acc : srev_app s acc = srev s ++ acc.
Proof.
  unfold srev. revert acc; induction s as [|c s IH]; intros acc; simpl; [reflexivity|].
  rewrite IH, (IH (String c "")), sapp_assoc. reflexivity.
Qed.

Lemma srev_cons c s : srev (String c s) = srev s ++ s1 c.
Proof. unfold srev at 1; simpl. now rewrite srev_app_spec. Qed.

Lemma srev_sapp s t : srev (s ++ t) = srev t ++ srev s.
Proof.
  induction s as [|c s IH]; simpl; [now rewrite sapp_nil_r|].
  now rewrite !srev_cons, IH, sapp_assoc.
Qed.

Lemma srev_involutive s : srev (srev s) = s.
Proof.
  induction s as [|c s IH]; [reflexivity|].
  now rewrite srev_cons, srev_sapp, IH.
Qed.

Lemma starts_with_app p s : starts_with p (p ++ s) = true.
Proof. induction p; simpl; [reflexivity|]. now rewrite Ascii.eqb_refl. Qed.

Lemma starts_with_iff p s : starts_with p s = true <-> exists t, s = p ++ t.
Proof.
  revert s; induction p as [|a p IH]; intros s; simpl.
  - split; [intros _; now exists s|reflexivity].
  - destruct s as [|b s]; simpl.
    + split; [discriminate|intros [t H]; discriminate].
    + rewrite andb_true_iff, IH, Ascii.eqb_eq. split.
      * intros [-> [t ->]]. now exists t.
      * intros [t H]; inversion H; subst; eauto.
Qed.

Lemma strip_prefix_iff p s t : strip_prefix p s = Some t <-> s = p ++ t.
Proof.
  revert s; induction p as [|a p IH]; intros s; simpl.
  - split; congruence.
  - destruct s as [|b s]; simpl; [split; discriminate|].
    destruct (Ascii.eqb_spec a b) as [->|N].
    + rewrite IH. split; [congruence|]. now inversion 1.
    + split; [discriminate|]. inversion 1; congruence.
Qed.

Lemma strip_prefix_app p s : strip_prefix p (p ++ s) = Some s.
Proof. now apply strip_prefix_iff. Qed.

Lemma ends_with_iff p s : ends_with p s = true <-> exists t, s = t ++ p.
Proof.
  unfold ends_with. rewrite starts_with_iff. split.
  - intros [t H]. exists (srev t).
    rewrite <- (srev_involutive s), H, srev_sapp, srev_involutive. reflexivity.
  - intros [t ->]. exists (srev t). now rewrite srev_sapp.
Qed.

(** ** Decimal printing is injective and yields digits only *)

Lemma string_of_uint_digits d : sforall is_digit (NilEmpty.string_of_uint d) = true.
Proof. induction d; simpl; auto. Qed.

Lemma dec_digits n : sforall is_digit (dec n) = true.
Proof. apply string_of_uint_digits. Qed.

Lemma dec_inj n m : dec n = dec m -> n = m.
Proof.
  unfold dec. intros H.
  assert (E : NilEmpty.uint_of_string (NilEmpty.string_of_uint (N.to_uint n))
              = NilEmpty.uint_of_string (NilEmpty.string_of_uint (N.to_uint m))) by now rewrite H.
  rewrite !NilEmpty.usu in E. inversion E as [E'].
  now apply DecimalN.Unsigned.to_uint_inj.
Qed.

Lemma decn_inj n m : decn n = decn m -> n = m.
Proof. unfold decn. intros H. apply dec_inj in H. lia. Qed.

Lemma decn_digits n : sforall is_digit (decn n) = true.
Proof. apply dec_digits. Qed.

Lemma dec_nonempty n : dec n <> "".
Proof.
  unfold dec. intros H.
  assert (N.to_uint n = Decimal.Nil).
  { destruct (N.to_uint n); simpl in H; congruence. }
  apply (f_equal N.of_uint) in H0. rewrite DecimalN.Unsigned.of_to in H0.
  subst. discriminate.
Qed.

Lemma decn_nonempty n : decn n <> "".
Proof. apply dec_nonempty. Qed.

(** A digit run followed by a non-digit determines the split. *)
Lemma digits_split_eq a b (x y : ascii) s t :
  sforall is_digit a = true -> sforall is_digit b = true ->
  is_digit x = false -> is_digit y = false ->
  a ++ String x s = b ++ String y t -> a = b /\ x = y /\ s = t.
Proof.
  revert b; induction a as [|c a IH]; intros b Ha Hb Hx Hy; destruct b as [|d b]; simpl in *.
  - inversion 1; auto.
  - apply andb_true_iff in Hb as [Hb _]. inversion 1; congruence.
  - apply andb_true_iff in Ha as [Ha _]. inversion 1; congruence.
  - apply andb_true_iff in Ha as [_ Ha]. apply andb_true_iff in Hb as [_ Hb].
    inversion 1; subst. destruct (IH b Ha Hb Hx Hy) as (-> & ? & ?); auto.
Qed.
