(** Rust integer arithmetic and number parsing used by several models. *)
From Coq Require Import String Ascii List Bool Arith NArith ZArith Lia DecimalString DecimalN.
From Verif Require Import Str.
Open Scope string_scope.

Definition u8_max : N := 255.
Definition u16_max : N := 65535.
Definition u32_max : N := 4294967295.
Definition u64_max : N := 18446744073709551615.
(** [usize] on a 64-bit target. *)
Definition usize_max : N := u64_max.

(** Unsigned arithmetic of a release build: results are reduced modulo
    [max + 1].  (A debug build panics where these differ from the exact
    result.) *)
Definition wadd (max a b : N) : N := ((a + b) mod (max + 1))%N.
Definition wsub (max a b : N) : N := ((a + (max + 1) - b) mod (max + 1))%N.
Definition wmul (max a b : N) : N := ((a * b) mod (max + 1))%N.

Lemma wadd_exact max a b : (a + b <= max)%N -> wadd max a b = (a + b)%N.
Proof. intros H. unfold wadd. apply N.mod_small. lia. Qed.
Lemma wsub_exact max a b : (b <= a)%N -> (a <= max)%N -> wsub max a b = (a - b)%N.
Proof.
  intros H1 H2. unfold wsub. replace (a + (max + 1) - b)%N with ((a - b) + 1 * (max + 1))%N by lia.
  rewrite N.mod_add by lia. apply N.mod_small. lia.
Qed.
Lemma wmul_exact max a b : (a * b <= max)%N -> wmul max a b = (a * b)%N.
Proof. intros H. unfold wmul. apply N.mod_small. lia. Qed.

(** [s.parse::<uN>()]: an optional plus sign, then at least one decimal digit,
    with a value of at most [max]. *)
Definition parse_digits (max : N) (s : string) : option N :=
  match s with
  | "" => None
  | _ => match NilEmpty.uint_of_string s with
         | Some d => let v := N.of_uint d in if (v <=? max)%N then Some v else None
         | None => None
         end
  end.
Definition parse_uint (max : N) (s : string) : option N :=
  match s with
  | String "+" s' => parse_digits max s'
  | _ => parse_digits max s
  end.

Lemma parse_digits_dec max n : (n <= max)%N -> parse_digits max (dec n) = Some n.
Proof.
  intros H. pose proof (dec_nonempty n) as D. unfold parse_digits. destruct (dec n) as [|c s] eqn:E; [congruence|].
  rewrite <- E. unfold dec. rewrite NilEmpty.usu. rewrite Unsigned.of_to. now apply N.leb_le in H as ->.
Qed.
Lemma dec_head n c s : dec n = String c s -> is_digit c = true.
Proof. intros H. pose proof (dec_digits n) as D. rewrite H in D. cbn [sforall] in D. now apply andb_true_iff in D. Qed.
Lemma parse_uint_dec max n : (n <= max)%N -> parse_uint max (dec n) = Some n.
Proof.
  intros H. unfold parse_uint. destruct (dec n) as [|c s] eqn:E; [now apply dec_nonempty in E|].
  pose proof (dec_head n c s E) as Hc. pose proof (parse_digits_dec max n H) as P. rewrite E in P.
  destruct c as [[] [] [] [] [] [] [] []]; try exact P; discriminate.
Qed.
Lemma parse_digits_le max s n : parse_digits max s = Some n -> (n <= max)%N.
Proof.
  unfold parse_digits. destruct s; [discriminate|]. destruct (NilEmpty.uint_of_string _); [|discriminate].
  cbv zeta. destruct (N.leb_spec (N.of_uint u) max); [|discriminate]. intros E. injection E as <-. assumption.
Qed.
Lemma parse_uint_le max s n : parse_uint max s = Some n -> (n <= max)%N.
Proof.
  unfold parse_uint. destruct s as [|c s]; [apply parse_digits_le|].
  destruct c as [[] [] [] [] [] [] [] []]; apply parse_digits_le.
Qed.

(** ** Hexadecimal *)

(** [{:X}] of one digit. *)
Definition hex_digit (n : N) : ascii := ascii_of_N (if (n <? 10)%N then 48 + n else 55 + n).
(** The last [w] digits. *)
Fixpoint hexn (w : nat) (n : N) : string :=
  match w with
  | O => ""
  | S w => hexn w (n / 16)%N ++ String (hex_digit (n mod 16)) ""
  end.
(** How many digits a number has, and [{:0wX}]: all of them, filled up with zeros. *)
Definition hex_len (n : N) : nat := S (N.to_nat (N.log2 n / 4)).
Definition hexw (w : nat) (n : N) : string := hexn (Nat.max w (hex_len n)) n.
(** [char::to_digit(16)]. *)
Definition hex_val (c : ascii) : option N :=
  let n := N_of_ascii c in
  if (48 <=? n)%N && (n <=? 57)%N then Some (n - 48)%N
  else if (65 <=? n)%N && (n <=? 70)%N then Some (n - 55)%N
  else if (97 <=? n)%N && (n <=? 102)%N then Some (n - 87)%N
  else None.
Fixpoint hex_digits_val (s : string) (acc : N) : option N :=
  match s with
  | "" => Some acc
  | String c s => match hex_val c with Some d => hex_digits_val s (acc * 16 + d)%N | None => None end
  end.
(** [uN::from_str_radix(s, 16)]. *)
Definition from_hex_str (max : N) (s : string) : option N :=
  let t := match s with String "+" t => t | _ => s end in
  match t with
  | "" => None
  | _ => match hex_digits_val t 0 with
         | Some v => if (v <=? max)%N then Some v else None
         | None => None
         end
  end.

Definition is_upper_hex (c : ascii) : bool :=
  let n := N_of_ascii c in ((48 <=? n) && (n <=? 57) || (65 <=? n) && (n <=? 70))%N.
Lemma hex_digit_upper n : (n < 16)%N -> is_upper_hex (hex_digit n) = true /\ hex_val (hex_digit n) = Some n.
Proof.
  intros H. assert (n = 0 \/ n = 1 \/ n = 2 \/ n = 3 \/ n = 4 \/ n = 5 \/ n = 6 \/ n = 7 \/ n = 8 \/ n = 9 \/ n = 10 \/ n = 11 \/ n = 12 \/ n = 13 \/ n = 14 \/ n = 15)%N as C by lia.
  repeat (destruct C as [->|C]; [split; reflexivity|]). subst. split; reflexivity.
Qed.
Lemma hexn_upper w : forall n, sforall is_upper_hex (hexn w n) = true /\ String.length (hexn w n) = w.
Proof.
  induction w as [|w IH]; intros n; [split; reflexivity|]. cbn [hexn]. destruct (IH (n / 16)%N) as [A B]. split.
  - rewrite sforall_app, A. cbn [sforall]. rewrite (proj1 (hex_digit_upper (n mod 16) ltac:(apply N.mod_lt; lia))). reflexivity.
  - rewrite slength_app, B. cbn. lia.
Qed.
Lemma hex_digits_val_app s t acc : hex_digits_val (s ++ t) acc =
  match hex_digits_val s acc with Some v => hex_digits_val t v | None => None end.
Proof. revert acc. induction s as [|c s IH]; intros acc; [reflexivity|]. cbn [append hex_digits_val]. destruct (hex_val c); [apply IH|reflexivity]. Qed.
Lemma hexn_val w : forall n, (n < 16 ^ N.of_nat w)%N -> hex_digits_val (hexn w n) 0 = Some n.
Proof.
  induction w as [|w IH]; intros n H; [cbn in *; f_equal; lia|]. cbn [hexn]. rewrite hex_digits_val_app.
  assert (E : (16 ^ N.of_nat (S w) = 16 * 16 ^ N.of_nat w)%N).
  { rewrite Nnat.Nat2N.inj_succ, N.pow_succ_r by lia. reflexivity. }
  rewrite IH by (apply N.div_lt_upper_bound; [lia|rewrite <- E; exact H]).
  cbn [hex_digits_val]. rewrite (proj2 (hex_digit_upper (n mod 16) ltac:(apply N.mod_lt; lia))).
  f_equal. rewrite (N.div_mod n 16) at 3 by lia. lia.
Qed.
Lemma hex_len_bound n : (n < 16 ^ N.of_nat (hex_len n))%N.
Proof.
  destruct (N.eq_dec n 0) as [->|Z]; [reflexivity|]. unfold hex_len. rewrite Nnat.Nat2N.inj_succ, Nnat.N2Nat.id.
  change 16%N with (2 ^ 4)%N. rewrite <- N.pow_mul_r. eapply N.lt_le_trans; [apply N.log2_spec; lia|]. apply N.pow_le_mono_r; [lia|].
  pose proof (N.div_mod (N.log2 n) 4 ltac:(lia)). pose proof (N.mod_lt (N.log2 n) 4 ltac:(lia)). lia.
Qed.
Lemma hex_len_le w n : (0 < w)%nat -> (n < 16 ^ N.of_nat w)%N -> (hex_len n <= w)%nat.
Proof.
  intros W H. destruct (N.eq_dec n 0) as [->|Z]; [exact W|]. unfold hex_len. change 16%N with (2 ^ 4)%N in H. rewrite <- N.pow_mul_r in H.
  apply N.log2_lt_pow2 in H; [|lia]. assert (N.log2 n / 4 < N.of_nat w)%N by (apply N.div_lt_upper_bound; lia). lia.
Qed.
Lemma hexw_exact w n : (0 < w)%nat -> (n < 16 ^ N.of_nat w)%N -> hexw w n = hexn w n.
Proof. intros W H. unfold hexw. rewrite Nat.max_l; [reflexivity|]. now apply hex_len_le. Qed.
Lemma hexw_upper w n : sforall is_upper_hex (hexw w n) = true.
Proof. apply hexn_upper. Qed.
Lemma hexw_length w n : (0 < w)%nat -> (n < 16 ^ N.of_nat w)%N -> String.length (hexw w n) = w.
Proof. intros W H. rewrite hexw_exact by assumption. apply hexn_upper. Qed.
Lemma hexw_val w n : hex_digits_val (hexw w n) 0 = Some n.
Proof.
  apply hexn_val. eapply N.lt_le_trans; [apply hex_len_bound|]. apply N.pow_le_mono_r; lia.
Qed.
