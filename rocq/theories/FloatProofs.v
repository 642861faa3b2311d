(** Facts about floating-point results and their conversion to integers. *)
From Coq Require Import ZArith NArith Reals Lia Lra Psatz.
From Flocq Require Import Core IEEE754.BinarySingleNaN.
From Verif Require Import FloatModel.
Open Scope R_scope.

(** ** Cutting off *)
Definition between (lo hi z : Z) : Z := Z.max lo (Z.min hi z).

Section FLOAT.
  Context (prec emax : Z) {Hp : Prec_gt_0 prec} {He : Prec_lt_emax prec emax}.
  Notation float := (binary_float prec emax).
  Notation rnd := (round radix2 (SpecFloat.fexp prec emax) ZnearestE).
  Notation huge := (bpow radix2 emax).
  Local Instance fexp_ok : Valid_exp (SpecFloat.fexp prec emax) := fexp_correct prec emax Hp.
  Local Instance fexp_mono : Monotone_exp (SpecFloat.fexp prec emax) := fexp_monotone prec emax.

  (** A result is the exact one rounded, or an infinity if that is too large. *)
  Definition gives (z : float) (v : R) : Prop :=
    (is_finite z = true /\ B2R z = rnd v /\ Rabs (rnd v) < huge)
    \/ (z = B754_infinity false /\ huge <= rnd v) \/ (z = B754_infinity true /\ rnd v <= - huge).

  Lemma huge_pos : 0 < huge.
  Proof. apply bpow_gt_0. Qed.
  Lemma sign_R (x : float) : is_finite x = true -> if Bsign x then B2R x <= 0 else 0 <= B2R x.
  Proof.
    destruct x as [s|s| |s m e E]; try discriminate; intros _; cbn [Bsign B2R]; [destruct s; lra|]. destruct s; cbn.
    - apply F2R_le_0. reflexivity || (cbn; lia).
    - apply F2R_ge_0. cbn. lia.
  Qed.
  Lemma infinite (z : float) s : B2SF z = SpecFloat.S754_infinity s -> z = B754_infinity s.
  Proof. destruct z; cbn; intros H; try discriminate. now injection H as ->. Qed.
  Lemma rnd_sign v : (0 <= v -> 0 <= rnd v) /\ (v <= 0 -> rnd v <= 0).
  Proof. split; intros H; [rewrite <- (round_0 radix2 (SpecFloat.fexp prec emax) ZnearestE)|rewrite <- (round_0 radix2 (SpecFloat.fexp prec emax) ZnearestE)]; apply round_le; auto with typeclass_instances. Qed.
  Lemma gives_over (z : float) v s : ~ Rabs (rnd v) < huge -> B2SF z = binary_overflow prec emax mode_NE s -> (if s then v <= 0 else 0 <= v) -> gives z v.
  Proof.
    intros L E S. right. assert (E' : B2SF z = SpecFloat.S754_infinity s) by exact E. apply infinite in E' as ->. destruct (rnd_sign v) as [P N]. pose proof huge_pos.
    destruct s; [right|left]; (split; [reflexivity|]).
    - specialize (N S). rewrite Rabs_left1 in L by exact N. lra.
    - specialize (P S). rewrite Rabs_pos_eq in L by exact P. lra.
  Qed.
  Lemma prod_sign (x y : float) : is_finite x = true -> is_finite y = true -> if xorb (Bsign x) (Bsign y) then B2R x * B2R y <= 0 else 0 <= B2R x * B2R y.
  Proof. intros A B. pose proof (sign_R x A) as P. pose proof (sign_R y B) as Q. destruct (Bsign x), (Bsign y); cbn [xorb]; nra. Qed.
  Lemma gives_mul (x y : float) : is_finite x = true -> is_finite y = true -> gives (fmul prec emax x y) (B2R x * B2R y).
  Proof.
    intros A B. pose proof (Bmult_correct prec emax Hp He mode_NE x y) as H. cbn [round_mode] in H. unfold fmul.
    destruct (Rlt_bool_spec (Rabs (rnd (B2R x * B2R y))) huge) as [L|L].
    - destruct H as (H1 & H2 & _). left. rewrite H2, A, B. repeat split; assumption.
    - eapply gives_over; [apply Rle_not_lt; exact L|exact H|now apply prod_sign].
  Qed.
  Lemma quot_sign (x y : float) : is_finite x = true -> is_finite y = true -> B2R y <> 0 -> if xorb (Bsign x) (Bsign y) then B2R x / B2R y <= 0 else 0 <= B2R x / B2R y.
  Proof.
    intros A B N. pose proof (sign_R x A) as P. pose proof (sign_R y B) as Q. unfold Rdiv. destruct (Bsign y) eqn:S.
    - assert (I : / B2R y < 0) by (apply Rinv_lt_0_compat; lra). destruct (Bsign x); cbn [xorb]; nra.
    - assert (I : 0 < / B2R y) by (apply Rinv_0_lt_compat; lra). destruct (Bsign x); cbn [xorb]; nra.
  Qed.
  Lemma gives_div (x y : float) : is_finite x = true -> is_finite y = true -> B2R y <> 0 -> gives (fdiv prec emax x y) (B2R x / B2R y).
  Proof.
    intros A B N. pose proof (Bdiv_correct prec emax Hp He mode_NE x y N) as H. cbn [round_mode] in H. unfold fdiv.
    destruct (Rlt_bool_spec (Rabs (rnd (B2R x / B2R y))) huge) as [L|L].
    - destruct H as (H1 & H2 & _). left. rewrite H2, A. repeat split; assumption.
    - eapply gives_over; [apply Rle_not_lt; exact L|exact H|now apply quot_sign].
  Qed.
  Lemma gives_add (x y : float) : is_finite x = true -> is_finite y = true -> gives (fadd prec emax x y) (B2R x + B2R y).
  Proof.
    intros A B. pose proof (Bplus_correct prec emax Hp He mode_NE x y A B) as H. cbn [round_mode] in H. unfold fadd.
    destruct (Rlt_bool_spec (Rabs (rnd (B2R x + B2R y))) huge) as [L|L].
    - destruct H as (H1 & H2 & _). left. repeat split; assumption.
    - destruct H as [H1 H2]. eapply gives_over; [apply Rle_not_lt; exact L|exact H1|]. pose proof (sign_R x A) as P. pose proof (sign_R y B) as Q. rewrite <- H2 in Q. revert P Q. destruct (Bsign x); intros; lra.
  Qed.
  Lemma gives_sub (x y : float) : is_finite x = true -> is_finite y = true -> gives (fsub prec emax x y) (B2R x - B2R y).
  Proof.
    intros A B. pose proof (Bminus_correct prec emax Hp He mode_NE x y A B) as H. cbn [round_mode] in H. unfold fsub.
    destruct (Rlt_bool_spec (Rabs (rnd (B2R x - B2R y))) huge) as [L|L].
    - destruct H as (H1 & H2 & _). left. repeat split; assumption.
    - destruct H as [H1 H2]. eapply gives_over; [apply Rle_not_lt; exact L|exact H1|]. pose proof (sign_R x A) as P. pose proof (sign_R y B) as Q. rewrite H2 in P |- *. revert P Q. destruct (Bsign y); cbn [negb]; intros; lra.
  Qed.
  (** Integers up to the precision are exact. *)
  Lemma exact_int z : (Z.abs z <= 2 ^ prec)%Z -> rnd (IZR z) = IZR z.
  Proof.
    intros L. apply round_generic; auto with typeclass_instances. apply (generic_format_FLT radix2 (SpecFloat.emin prec emax) prec).
    pose proof Hp as P. unfold Prec_gt_0 in P. pose proof He as Q. unfold Prec_lt_emax in Q.
    destruct (Z.eq_dec (Z.abs z) (2 ^ prec)) as [E|E].
    - exists (Float radix2 (Z.sgn z) prec).
      + unfold F2R. cbn [Fnum Fexp]. rewrite <- (IZR_Zpower radix2 prec) by lia. change (Zpower radix2 prec) with (2 ^ prec)%Z. rewrite <- mult_IZR, <- E. f_equal. lia.
      + cbn [Fnum]. assert (1 < 2 ^ prec)%Z by (apply Z.pow_gt_1; lia). change (Zpower radix2 prec) with (2 ^ prec)%Z. lia.
      + cbn [Fexp]. unfold SpecFloat.emin. lia.
    - exists (Float radix2 z 0).
      + unfold F2R. cbn. lra.
      + cbn [Fnum]. change (Zpower radix2 prec) with (2 ^ prec)%Z. lia.
      + cbn [Fexp]. unfold SpecFloat.emin. lia.
  Qed.
  Lemma pow_huge : IZR (2 ^ prec) < huge.
  Proof.
    pose proof Hp as P. unfold Prec_gt_0 in P. pose proof He as Q. unfold Prec_lt_emax in Q. change 2%Z with (radix_val radix2). rewrite IZR_Zpower by lia. now apply bpow_lt.
  Qed.
  Lemma int_R z : (Z.abs z <= 2 ^ prec)%Z -> is_finite (of_int prec emax z) = true /\ B2R (of_int prec emax z) = IZR z.
  Proof.
    intros L. pose proof (binary_normalize_correct prec emax Hp He mode_NE z 0 false) as H. cbn [round_mode] in H. change (F2R (Float radix2 z 0)) with (IZR z * 1) in H. rewrite Rmult_1_r in H.
    rewrite (exact_int z L) in H. rewrite Rlt_bool_true in H.
    - destruct H as (H1 & H2 & _). now split.
    - rewrite <- abs_IZR. apply Rle_lt_trans with (2 := pow_huge). now apply IZR_le.
  Qed.

  (** ** As an integer *)
  Lemma cast_finite lo hi (z : float) : is_finite z = true -> cast prec emax lo hi z = between lo hi (Ztrunc (B2R z)).
  Proof.
    intros F. assert (T : Btrunc z = Ztrunc (B2R z)).
    { apply eq_IZR. rewrite (Btrunc_correct prec emax He z). unfold round. unfold scaled_mantissa, cexp, FIX_exp, F2R. cbn. now rewrite !Rmult_1_r. }
    destruct z; try discriminate; unfold cast; now rewrite T.
  Qed.
  Lemma cast_gives lo hi z v : (lo <= hi)%Z -> IZR hi <= huge -> - huge <= IZR lo -> gives z v -> cast prec emax lo hi z = between lo hi (Ztrunc (rnd v)).
  Proof.
    intros O H L [(F & <- & _)|[(-> & B)|(-> & B)]].
    - now apply cast_finite.
    - unfold cast, between. assert (hi <= Ztrunc (rnd v))%Z; [|lia]. rewrite <- (Ztrunc_IZR hi). apply Ztrunc_le. lra.
    - unfold cast, between. assert (Ztrunc (rnd v) <= lo)%Z; [|lia]. rewrite <- (Ztrunc_IZR lo). apply Ztrunc_le. lra.
  Qed.
  Lemma whole_mono lo hi u v : u <= v -> (between lo hi (Ztrunc (rnd u)) <= between lo hi (Ztrunc (rnd v)))%Z.
  Proof. intros H. assert (Ztrunc (rnd u) <= Ztrunc (rnd v))%Z; [|unfold between; lia]. apply Ztrunc_le. apply round_le; auto with typeclass_instances. Qed.
  Lemma whole_exact z : (Z.abs z <= 2 ^ prec)%Z -> Ztrunc (rnd (IZR z)) = z.
  Proof. intros H. rewrite (exact_int z H). apply Ztrunc_IZR. Qed.
  (** The error of rounding below [2 ^ k]. *)
  Lemma rnd_error v k : (SpecFloat.emin prec emax <= k - prec)%Z -> Rabs v <= bpow radix2 k -> Rabs (rnd v - v) <= bpow radix2 (k - prec - 1).
  Proof.
    intros K H. pose proof (bpow_ge_0 radix2 (k - prec - 1)) as P1. pose proof Hp as HP. unfold Prec_gt_0 in HP.
    destruct (Req_dec (Rabs v) (bpow radix2 k)) as [E|E].
    - assert (G : rnd v = v).
      { apply round_generic; auto with typeclass_instances. assert (GB : generic_format radix2 (SpecFloat.fexp prec emax) (bpow radix2 k)).
        { apply generic_format_bpow. unfold SpecFloat.fexp. lia. }
        destruct (Rabs_eq_Rabs v (bpow radix2 k)) as [->| ->]; [rewrite E; symmetry; apply Rabs_pos_eq, bpow_ge_0|exact GB|now apply generic_format_opp]. }
      rewrite G, Rminus_diag_eq, Rabs_R0 by reflexivity. lra.
    - assert (L : Rabs v < bpow radix2 k) by lra. eapply Rle_trans; [apply error_le_half_ulp; auto with typeclass_instances|].
      assert (U : ulp radix2 (SpecFloat.fexp prec emax) v <= bpow radix2 (k - prec)).
      { destruct (Req_dec v 0) as [->|Z0].
        - rewrite (ulp_FLT_small radix2 (SpecFloat.emin prec emax) prec); [|rewrite Rabs_R0; apply bpow_gt_0]. now apply bpow_le.
        - rewrite ulp_neq_0 by exact Z0. apply bpow_le. unfold cexp, SpecFloat.fexp. pose proof (mag_le_bpow radix2 v k Z0 L). lia. }
      assert (D1 : bpow radix2 (k - prec - 1) = / 2 * bpow radix2 (k - prec)) by (replace (k - prec)%Z with (1 + (k - prec - 1))%Z at 2 by lia; rewrite bpow_plus; cbn; field).
      rewrite D1. lra.
  Qed.
End FLOAT.
