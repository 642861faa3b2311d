(** Proofs about measures. *)
From Coq Require Import ZArith Reals Lia Lra Psatz.
From Flocq Require Import Core IEEE754.BinarySingleNaN Relative.
From Verif Require Import FloatModel FloatProofs DimModel DimSpec.
Open Scope R_scope.

Notation rnd := (round radix2 (SpecFloat.fexp 53 1024) ZnearestE).
Notation gives64 := (gives 53 1024).
Local Instance fexp_ok64 : Valid_exp (SpecFloat.fexp 53 1024) := fexp_correct 53 1024 prec53.
Local Instance fexp_mono64 : Monotone_exp (SpecFloat.fexp 53 1024) := fexp_monotone 53 1024.

Lemma num_R z : (Z.abs z <= 9007199254740992)%Z -> finite (num z) /\ value (num z) = IZR z.
Proof. exact (int_R 53 1024 z). Qed.
Lemma range_u32 : (0 <= u32_hi)%Z /\ IZR u32_hi <= bpow radix2 1024 /\ - bpow radix2 1024 <= IZR 0.
Proof.
  split; [discriminate|]. split; [|pose proof (bpow_gt_0 radix2 1024); lra]. unfold u32_hi. apply Rle_trans with (bpow radix2 32); [apply IZR_le; cbn; lia|now apply bpow_le].
Qed.
Lemma range_i64 : (i64_lo <= i64_hi)%Z /\ IZR i64_hi <= bpow radix2 1024 /\ - bpow radix2 1024 <= IZR i64_lo.
Proof.
  assert (H : bpow radix2 63 <= bpow radix2 1024) by (now apply bpow_le). revert H. generalize (bpow radix2 1024). intros big H. split; [unfold i64_lo, i64_hi, i32_lo, i32_hi; lia|]. cbn [bpow] in H. change (IZR (Z.pow_pos radix2 63)) with 9223372036854775808 in H.
  unfold i64_hi, i64_lo. split; lra.
Qed.
Lemma range_i32 : (i32_lo <= i32_hi)%Z /\ IZR i32_hi <= bpow radix2 1024 /\ - bpow radix2 1024 <= IZR i32_lo.
Proof.
  assert (H : bpow radix2 63 <= bpow radix2 1024) by (now apply bpow_le). revert H. generalize (bpow radix2 1024). intros big H. split; [unfold i64_lo, i64_hi, i32_lo, i32_hi; lia|]. cbn [bpow] in H. change (IZR (Z.pow_pos radix2 63)) with 9223372036854775808 in H.
  unfold i32_hi, i32_lo. split; lra.
Qed.
Lemma as_u32_gives z v : gives64 z v -> as_u32 z = between 0 u32_hi (Ztrunc (rnd v)).
Proof. destruct range_u32 as (A & B & C). now apply cast_gives. Qed.
Lemma as_u32_times x y : finite x -> finite y -> as_u32 (times x y) = between 0 u32_hi (Ztrunc (rnd (value x * value y))).
Proof. intros A B. apply as_u32_gives. now apply gives_mul. Qed.
Lemma as_u32_over x y : finite x -> finite y -> value y <> 0 -> as_u32 (over x y) = between 0 u32_hi (Ztrunc (rnd (value x / value y))).
Proof. intros A B C. apply as_u32_gives. now apply gives_div. Qed.

(** ** The integer of a real number *)
Lemma error32 v : Rabs v <= 4294967296 -> Rabs (rnd v - v) <= 1 / 4194304.
Proof.
  intros H. eapply Rle_trans; [apply (rnd_error 53 1024 v 32)|]; [discriminate|cbn; lra|].
  change (32 - 53 - 1)%Z with (-22)%Z. assert (G : bpow radix2 (-22) = / 4194304) by reflexivity. rewrite G. lra.
Qed.
Lemma trunc_bounds x : 0 <= x -> IZR (Ztrunc x) <= x < IZR (Ztrunc x) + 1.
Proof. intros H. rewrite Ztrunc_floor by exact H. split; [apply Zfloor_lb|apply Zfloor_ub]. Qed.
Lemma rnd_int z v : (Z.abs z <= 9007199254740992)%Z -> (v <= IZR z -> rnd v <= IZR z) /\ (IZR z <= v -> IZR z <= rnd v).
Proof. intros Z0. pose proof (exact_int 53 1024 z Z0) as E. split; intros H; rewrite <- E; apply round_le; auto with typeclass_instances. Qed.
Lemma whole q : 0 <= q <= 4294967295 -> whole_part (between 0 u32_hi (Ztrunc (rnd q))) q /\ u32_range (between 0 u32_hi (Ztrunc (rnd q))).
Proof.
  intros H. pose proof (error32 q ltac:(rewrite Rabs_pos_eq; lra)) as E. destruct (rnd_int 0 q ltac:(lia)) as [_ R0]. destruct (rnd_int 4294967295 q ltac:(lia)) as [R1 _].
  specialize (R0 ltac:(lra)). specialize (R1 ltac:(lra)). pose proof (trunc_bounds (rnd q) R0) as [T1 T2].
  assert (L : (Ztrunc (rnd q) <= 4294967295)%Z) by (apply le_IZR; lra). assert (G : (0 <= Ztrunc (rnd q))%Z) by (rewrite <- (Ztrunc_IZR 0); apply Ztrunc_le; exact R0).
  assert (B : between 0 u32_hi (Ztrunc (rnd q)) = Ztrunc (rnd q)) by (unfold between, u32_hi; lia). rewrite B. apply Rabs_le_inv in E. split; [unfold whole_part; lra|now split].
Qed.
Lemma whole_low q : q <= 0 -> between 0 u32_hi (Ztrunc (rnd q)) = 0%Z.
Proof. intros H. destruct (rnd_int 0 q ltac:(lia)) as [R0 _]. specialize (R0 H). assert (L : (Ztrunc (rnd q) <= 0)%Z) by (rewrite <- (Ztrunc_IZR 0); apply Ztrunc_le; exact R0). unfold between, u32_hi. lia. Qed.
Lemma whole_high q : 4294967295 <= q -> between 0 u32_hi (Ztrunc (rnd q)) = 4294967295%Z.
Proof. intros H. destruct (rnd_int 4294967295 q ltac:(lia)) as [_ R0]. specialize (R0 H). assert (L : (4294967295 <= Ztrunc (rnd q))%Z) by (rewrite <- (Ztrunc_IZR 4294967295); apply Ztrunc_le; exact R0). unfold between, u32_hi. lia. Qed.
Lemma whole_int z : u32_range z -> between 0 u32_hi (Ztrunc (rnd (IZR z))) = z.
Proof. intros H. unfold u32_range in H. rewrite (whole_exact 53 1024 z) by lia. unfold between, u32_hi. lia. Qed.

(** ** Measures *)
Lemma measured unit k v r : measure unit k -> finite v -> to_emu (unit v) r = between 0 u32_hi (Ztrunc (rnd (value v * k))).
Proof.
  intros M F. assert (G : forall z q, (Z.abs z <= 9007199254740992)%Z -> IZR z = q -> as_u32 (times v (num z)) = between 0 u32_hi (Ztrunc (rnd (value v * q)))).
  { intros z q H <-. destruct (num_R z H) as [A B]. now rewrite as_u32_times, B. }
  destruct M; cbn [to_emu]; apply G; (lia || lra).
Qed.
Lemma measure_close unit k v r : measure unit k -> finite v -> 0 <= value v * k <= 4294967295 -> whole_part (to_emu (unit v) r) (value v * k).
Proof. intros M F H. rewrite (measured _ _ _ _ M F). now apply whole. Qed.
Lemma measure_exact unit k v r z : measure unit k -> finite v -> u32_range z -> value v * k = IZR z -> to_emu (unit v) r = z.
Proof. intros M F H E. rewrite (measured _ _ _ _ M F), E. now apply whole_int. Qed.
Lemma measure_mono unit k v w r : measure unit k -> finite v -> finite w -> value v <= value w -> (to_emu (unit v) r <= to_emu (unit w) r)%Z.
Proof. intros M F G H. rewrite (measured _ _ _ _ M F), (measured _ _ _ _ M G). apply whole_mono; [exact prec53|]. destruct M; lra. Qed.
Lemma measure_ends unit k v r : measure unit k -> (finite v -> value v <= 0 -> to_emu (unit v) r = 0%Z) /\ (finite v -> 4294967295 <= value v * k -> to_emu (unit v) r = 4294967295%Z)
  /\ to_emu (unit B754_nan) r = 0%Z /\ to_emu (unit (B754_infinity true)) r = 0%Z /\ to_emu (unit (B754_infinity false)) r = 4294967295%Z.
Proof.
  intros M. split; [|split; [|destruct M; vm_compute; repeat split]].
  - intros F H. rewrite (measured _ _ _ _ M F). apply whole_low. destruct M; lra.
  - intros F H. rewrite (measured _ _ _ _ M F). now apply whole_high.
Qed.
Lemma between_range z : u32_range (between 0 u32_hi z).
Proof. unfold u32_range, between, u32_hi. lia. Qed.
Lemma cast_range (x : f64) : u32_range (as_u32 x).
Proof.
  unfold as_u32. destruct (is_finite x) eqn:F; [rewrite (cast_finite 53 1024 0 u32_hi x F); apply between_range|]. destruct x as [s|s| |s m e E]; try discriminate; cbn [cast]; [destruct s|]; vm_compute; split; discriminate.
Qed.
Lemma emu_range d r : (forall v, d = Emu v -> u32_range v) -> u32_range (to_emu d r).
Proof. intros H. destruct d; cbn [to_emu]; [now apply H|apply cast_range..]. Qed.

(** ** Ratios *)
Lemma clamp_finite v : finite v -> finite (clamp_ratio v) /\ value (clamp_ratio v) = Rmax 0 (Rmin 1 (value v)).
Proof.
  intros F. unfold clamp_ratio, clamp_unit. fold (num 0). fold (num 1). destruct (num_R 0 ltac:(lia)) as [F0 V0]. destruct (num_R 1 ltac:(lia)) as [F1 V1]. unfold value, finite in *.
  rewrite (Bcompare_correct 53 1024 v (num 0) F F0), (Bcompare_correct 53 1024 v (num 1) F F1), V0, V1.
  destruct (Rcompare_spec (B2R v) 0) as [A|A|A].
  - split; [exact F0|]. rewrite V0. rewrite Rmax_left; [reflexivity|]. eapply Rle_trans; [apply Rmin_r|lra].
  - rewrite A. rewrite Rcompare_Lt by lra. split; [exact F|]. rewrite A. rewrite Rmin_right by lra. now rewrite Rmax_left by lra.
  - destruct (Rcompare_spec (B2R v) 1) as [B|B|B].
    + split; [exact F|]. rewrite Rmin_right by lra. now rewrite Rmax_right by lra.
    + split; [exact F|]. rewrite B. rewrite Rmin_left by lra. now rewrite Rmax_right by lra.
    + split; [exact F1|]. rewrite V1. rewrite Rmin_left by lra. now rewrite Rmax_right by lra.
Qed.
Lemma ratio_emu v r : finite v -> u32_range r -> to_emu (Ratio v) r = between 0 u32_hi (Ztrunc (rnd (Rmax 0 (Rmin 1 (value v)) * IZR r))).
Proof.
  intros F R. unfold u32_range in R. destruct (clamp_finite v F) as [C V]. destruct (num_R r ltac:(lia)) as [G W]. cbn [to_emu]. now rewrite as_u32_times, V, W.
Qed.
Lemma unit_bounds v : 0 <= Rmax 0 (Rmin 1 v) <= 1.
Proof. split; [apply Rmax_l|]. apply Rmax_lub; [lra|apply Rmin_l]. Qed.
Lemma ratio_special r : u32_range r -> to_emu (Ratio B754_nan) r = 0%Z /\ to_emu (Ratio (B754_infinity true)) r = 0%Z /\ to_emu (Ratio (B754_infinity false)) r = r.
Proof.
  intros R. unfold u32_range in R. destruct (num_R r ltac:(lia)) as [G W]. destruct (num_R 0 ltac:(lia)) as [F0 V0]. destruct (num_R 1 ltac:(lia)) as [F1 V1]. repeat split.
  - change (to_emu (Ratio (B754_infinity true)) r) with (as_u32 (times (num 0) (num r))). rewrite as_u32_times by assumption. rewrite V0, Rmult_0_l. apply whole_low. lra.
  - change (to_emu (Ratio (B754_infinity false)) r) with (as_u32 (times (num 1) (num r))). rewrite as_u32_times by assumption. rewrite V1, W, Rmult_1_l. now apply whole_int.
Qed.
Lemma ratio_within v r : u32_range r -> (0 <= to_emu (Ratio v) r <= r)%Z.
Proof.
  intros R. destruct (is_finite v) eqn:F.
  - split; [apply (cast_range (times (clamp_ratio v) (num r)))|]. rewrite (ratio_emu v r F R). rewrite <- (whole_int r R) at 2. apply whole_mono; [exact prec53|]. pose proof (unit_bounds (value v)). unfold u32_range in R. assert (0 <= IZR r) by (apply IZR_le; lia). nra.
  - destruct (ratio_special r R) as (A & B & C). unfold u32_range in R. destruct v as [s|s| |s m e E]; try discriminate; [destruct s|]; rewrite ?A, ?B, ?C; lia.
Qed.
Lemma ratio_close v r : finite v -> u32_range r -> 0 <= value v <= 1 -> whole_part (to_emu (Ratio v) r) (value v * IZR r).
Proof.
  intros F R H. rewrite (ratio_emu v r F R), Rmin_right, Rmax_right by lra. apply whole. unfold u32_range in R. assert (0 <= IZR r <= 4294967295) by (split; apply IZR_le; lia). nra.
Qed.
Lemma ratio_ends v r : finite v -> u32_range r -> (value v <= 0 -> to_emu (Ratio v) r = 0%Z) /\ (1 <= value v -> to_emu (Ratio v) r = r).
Proof.
  intros F R. rewrite (ratio_emu v r F R). split; intros H.
  - rewrite Rmin_right, Rmax_left, Rmult_0_l by lra. apply whole_low. lra.
  - rewrite Rmin_left, Rmax_right, Rmult_1_l by lra. now apply whole_int.
Qed.
Lemma ratio_mono v w r : finite v -> finite w -> u32_range r -> value v <= value w -> (to_emu (Ratio v) r <= to_emu (Ratio w) r)%Z.
Proof.
  intros F G R H. rewrite (ratio_emu v r F R), (ratio_emu w r G R). apply whole_mono; [exact prec53|]. unfold u32_range in R. assert (0 <= IZR r) by (apply IZR_le; lia).
  apply Rmult_le_compat_r; [assumption|]. apply Rle_max_compat_l. now apply Rle_min_compat_l.
Qed.

(** ** Signed coordinates *)
Lemma as_i64_times x y : finite x -> finite y -> as_i64 (times x y) = between i64_lo i64_hi (Ztrunc (rnd (value x * value y))).
Proof. intros A B. destruct range_i64 as (P & Q & R). refine (cast_gives 53 1024 _ _ _ _ P Q R _). now apply gives_mul. Qed.
Lemma as_i32_times x y : finite x -> finite y -> as_i32 (times x y) = between i32_lo i32_hi (Ztrunc (rnd (value x * value y))).
Proof. intros A B. destruct range_i32 as (P & Q & R). refine (cast_gives 53 1024 _ _ _ _ P Q R _). now apply gives_mul. Qed.
Lemma coordinate v : finite v -> coordinate_inches v = between i64_lo i64_hi (Ztrunc (rnd (value v * 914400))) /\ coordinate_cm v = between i64_lo i64_hi (Ztrunc (rnd (value v * 360000)))
  /\ rotation v = between i32_lo i32_hi (Ztrunc (rnd (value v * 60000))).
Proof.
  intros F. unfold coordinate_inches, coordinate_cm, rotation. rewrite !as_i64_times, as_i32_times by (exact F || (apply num_R; lia)). rewrite !(fun z H => proj2 (num_R z H)) by lia. repeat split.
Qed.
Lemma coordinate_exact v z : finite v -> (Z.abs z <= 9007199254740992)%Z -> (value v * 914400 = IZR z -> coordinate_inches v = z) /\ (value v * 360000 = IZR z -> coordinate_cm v = z)
  /\ ((i32_lo <= z <= i32_hi)%Z -> value v * 60000 = IZR z -> rotation v = z).
Proof.
  intros F H. destruct (coordinate v F) as (-> & -> & ->). repeat split; [intros ->| intros ->|intros I ->]; rewrite (whole_exact 53 1024 z) by lia; unfold between, i64_lo, i64_hi, i32_lo, i32_hi in *; lia.
Qed.
Lemma coordinate_mono v w : finite v -> finite w -> value v <= value w -> (coordinate_inches v <= coordinate_inches w)%Z /\ (coordinate_cm v <= coordinate_cm w)%Z /\ (rotation v <= rotation w)%Z.
Proof.
  intros F G H. destruct (coordinate v F) as (-> & -> & ->). destruct (coordinate w G) as (-> & -> & ->). repeat split; apply whole_mono; try exact prec53; lra.
Qed.

(** ** There and back *)
Lemma near_int q z : Rabs (q - IZR z) <= 1 / 1000 -> u32_range z -> (0 < z)%Z -> let e := between 0 u32_hi (Ztrunc (rnd q)) in e = z \/ e = (z - 1)%Z.
Proof.
  intros H R P. unfold u32_range in R. apply Rabs_le_inv in H. assert (B : 1 <= IZR z <= 4294967295) by (split; apply IZR_le; lia).
  pose proof (error32 q ltac:(rewrite Rabs_pos_eq; lra)) as E. apply Rabs_le_inv in E. assert (Q : 0 <= rnd q) by lra. destruct (trunc_bounds _ Q) as [T1 T2].
  assert (U : (Ztrunc (rnd q) < z + 1)%Z) by (apply lt_IZR; rewrite plus_IZR; lra). assert (L : (z - 2 < Ztrunc (rnd q))%Z) by (apply lt_IZR; rewrite minus_IZR; lra).
  unfold between, u32_hi. lia.
Qed.
Lemma relative v : bpow radix2 (-1022) <= Rabs v -> exists d, Rabs d <= bpow radix2 (-53) /\ rnd v = v * (1 + d).
Proof.
  intros H. destruct (relative_error_N_FLT_ex radix2 (SpecFloat.emin 53 1024) 53 prec53 (fun x => negb (Z.even x)) v) as (d & D & E).
  - exact H.
  - exists d. split; [|exact E]. eapply Rle_trans; [exact D|]. change (- (53) + 1)%Z with (1 + (-53))%Z. rewrite bpow_plus. cbn. lra.
Qed.
Lemma tiny : bpow radix2 (-1022) <= bpow radix2 (-40) /\ bpow radix2 (-40) = / 1099511627776 /\ bpow radix2 (-53) = / 9007199254740992.
Proof. split; [now apply bpow_le|]. split; reflexivity. Qed.
Lemma finite_gives z v : gives64 z v -> Rabs v <= 18446744073709551616 -> finite z /\ value z = rnd v.
Proof.
  intros G H. assert (L : Rabs (rnd v) < bpow radix2 1024).
  { apply Rle_lt_trans with (bpow radix2 64); [|now apply bpow_lt]. apply abs_round_le_generic; auto with typeclass_instances. apply generic_format_bpow. discriminate. }
  destruct G as [(F & V & _)|[(_ & B)|(_ & B)]]; [now split|apply Rabs_lt_inv in L; lra..].
Qed.
Lemma there_and_back e : u32_range e -> let b := inches_to_emu (emu_to_inches e) in b = e \/ b = (e - 1)%Z.
Proof.
  intros R. unfold u32_range in R. destruct (num_R e ltac:(lia)) as [F V]. destruct (num_R 914400 ltac:(lia)) as [F1 V1].
  assert (B : 0 <= IZR e <= 4294967295) by (split; apply IZR_le; lia).
  assert (G : gives64 (emu_to_inches e) (IZR e / 914400)). { rewrite <- V, <- V1. apply gives_div; [exact F|exact F1|]. fold (value (num 914400)). rewrite V1. lra. }
  destruct (finite_gives _ _ G) as [F2 V2]. { rewrite Rabs_pos_eq by (apply Rle_mult_inv_pos; lra). lra. }
  unfold inches_to_emu. rewrite as_u32_times, V2, V1 by assumption. destruct (Z.eq_dec e 0) as [->|N].
  - left. unfold Rdiv. rewrite Rmult_0_l, round_0 by auto with typeclass_instances. apply whole_low. lra.
  - apply near_int; [|exact R|lia]. assert (E1 : 1 <= IZR e) by (apply IZR_le; lia). destruct tiny as (T1 & T2 & T3).
    destruct (relative (IZR e / 914400)) as (d & D & ->). { rewrite Rabs_pos_eq by (apply Rle_mult_inv_pos; lra). rewrite T2 in T1. lra. }
    rewrite T3 in D. apply Rabs_le_inv in D. replace (IZR e / 914400 * (1 + d) * 914400 - IZR e) with (IZR e * d) by field. apply Rabs_le. nra.
Qed.

(** ** Pictures *)
Lemma scaled_width w h n : u32_range w -> u32_range h -> u32_range n -> (0 < w)%Z -> (0 < h)%Z -> IZR n * IZR h / IZR w <= 4294967295 ->
  fst (scale_to_width w h n) = n /\ Rabs (IZR (snd (scale_to_width w h n)) - IZR n * IZR h / IZR w) <= 1 + 1 / 100000.
Proof.
  intros RW RH RN PW PH Q. split; [reflexivity|]. cbn [snd scale_to_width]. unfold u32_range in *.
  destruct (num_R w ltac:(lia)) as [Fw Vw]. destruct (num_R h ltac:(lia)) as [Fh Vh]. destruct (num_R n ltac:(lia)) as [Fn Vn].
  assert (Bw : 1 <= IZR w <= 4294967295) by (split; apply IZR_le; lia). assert (Bh : 1 <= IZR h <= 4294967295) by (split; apply IZR_le; lia). assert (Bn : 0 <= IZR n <= 4294967295) by (split; apply IZR_le; lia).
  assert (G : gives64 (aspect_ratio w h) (IZR w / IZR h)). { rewrite <- Vw, <- Vh. apply gives_div; [exact Fw|exact Fh|]. fold (value (num h)). rewrite Vh. lra. }
  assert (I : 0 < / IZR h <= 1) by (split; [apply Rinv_0_lt_compat; lra|rewrite <- Rinv_1; apply Rinv_le; lra]).
  assert (J : / 4294967295 <= / IZR h) by (apply Rinv_le; lra).
  assert (A : / 4294967295 <= IZR w / IZR h <= 4294967295) by (unfold Rdiv; split; nra).
  destruct (finite_gives _ _ G) as [Fr Vr]. { rewrite Rabs_pos_eq by lra. lra. }
  destruct tiny as (T1 & T2 & T3). destruct (relative (IZR w / IZR h)) as (d & D & E). { rewrite Rabs_pos_eq by lra. rewrite T2 in T1. lra. }
  rewrite T3 in D. apply Rabs_le_inv in D. rewrite E in Vr. assert (V0 : 0 < IZR w / IZR h * (1 + d)) by nra.
  rewrite as_u32_over by (assumption || (fold (value (aspect_ratio w h)) in Vr; rewrite Vr; lra)). rewrite Vr, Vn.
  set (q := IZR n * IZR h / IZR w) in *. assert (q0 : 0 <= q) by (unfold q, Rdiv; apply Rmult_le_pos; [apply Rmult_le_pos; lra|apply Rlt_le, Rinv_0_lt_compat; lra]).
  assert (X : IZR n / (IZR w / IZR h * (1 + d)) = q / (1 + d)) by (unfold q; field; lra). rewrite X.
  assert (Y : Rabs (q / (1 + d) - q) <= 1 / 1000000).
  { replace (q / (1 + d) - q) with (q * (- d / (1 + d))) by (field; lra). assert (Z1 : Rabs (- d / (1 + d)) <= / 4503599627370496).
    { apply Rabs_le. assert (0 < / (1 + d)) by (apply Rinv_0_lt_compat; lra). assert (/ (1 + d) <= 2) by (rewrite <- (Rinv_inv 2); apply Rinv_le; lra). unfold Rdiv. split; nra. }
    rewrite Rabs_mult, (Rabs_pos_eq q) by exact q0. pose proof (Rabs_pos (- d / (1 + d))). nra. }
  apply Rabs_le_inv in Y. assert (q1 : 0 <= q / (1 + d)) by (unfold Rdiv; apply Rmult_le_pos; [exact q0|apply Rlt_le, Rinv_0_lt_compat; lra]).
  destruct (Rle_lt_dec (q / (1 + d)) 4294967295) as [L|L].
  - destruct (whole (q / (1 + d)) (conj q1 L)) as [[W1 W2] _]. apply Rabs_le. lra.
  - rewrite whole_high by lra. apply Rabs_le. lra.
Qed.
Lemma scaled_height w h n : u32_range w -> u32_range h -> u32_range n -> (0 < w)%Z -> (0 < h)%Z -> IZR n * IZR w / IZR h <= 4294967295 ->
  snd (scale_to_height w h n) = n /\ Rabs (IZR (fst (scale_to_height w h n)) - IZR n * IZR w / IZR h) <= 1 + 1 / 100000.
Proof.
  intros RW RH RN PW PH Q. split; [reflexivity|]. cbn [fst scale_to_height]. unfold u32_range in *.
  destruct (num_R w ltac:(lia)) as [Fw Vw]. destruct (num_R h ltac:(lia)) as [Fh Vh]. destruct (num_R n ltac:(lia)) as [Fn Vn].
  assert (Bw : 1 <= IZR w <= 4294967295) by (split; apply IZR_le; lia). assert (Bh : 1 <= IZR h <= 4294967295) by (split; apply IZR_le; lia). assert (Bn : 0 <= IZR n <= 4294967295) by (split; apply IZR_le; lia).
  assert (G : gives64 (aspect_ratio w h) (IZR w / IZR h)). { rewrite <- Vw, <- Vh. apply gives_div; [exact Fw|exact Fh|]. fold (value (num h)). rewrite Vh. lra. }
  assert (I : 0 < / IZR h <= 1) by (split; [apply Rinv_0_lt_compat; lra|rewrite <- Rinv_1; apply Rinv_le; lra]).
  assert (J : / 4294967295 <= / IZR h) by (apply Rinv_le; lra).
  assert (A : / 4294967295 <= IZR w / IZR h <= 4294967295) by (unfold Rdiv; split; nra).
  destruct (finite_gives _ _ G) as [Fr Vr]. { rewrite Rabs_pos_eq by lra. lra. }
  destruct tiny as (T1 & T2 & T3). destruct (relative (IZR w / IZR h)) as (d & D & E). { rewrite Rabs_pos_eq by lra. rewrite T2 in T1. lra. }
  rewrite T3 in D. apply Rabs_le_inv in D. rewrite E in Vr. rewrite as_u32_times by assumption. rewrite Vr, Vn.
  set (q := IZR n * IZR w / IZR h) in *. assert (q0 : 0 <= q) by (unfold q, Rdiv; apply Rmult_le_pos; [apply Rmult_le_pos; lra|lra]).
  assert (X : IZR n * (IZR w / IZR h * (1 + d)) = q * (1 + d)) by (unfold q; field; lra). rewrite X.
  assert (Y : Rabs (q * (1 + d) - q) <= 1 / 1000000) by (replace (q * (1 + d) - q) with (q * d) by ring; apply Rabs_le; nra).
  apply Rabs_le_inv in Y. assert (q1 : 0 <= q * (1 + d)) by (apply Rmult_le_pos; lra).
  destruct (Rle_lt_dec (q * (1 + d)) 4294967295) as [L|L].
  - destruct (whole (q * (1 + d)) (conj q1 L)) as [[W1 W2] _]. apply Rabs_le. lra.
  - rewrite whole_high by lra. apply Rabs_le. lra.
Qed.

(** ** Percentages and places *)
Lemma percent_finite v : finite v -> Rabs (value v) <= 18446744073709551616 -> finite (over v (num 100)) /\ value (over v (num 100)) = rnd (value v / 100).
Proof.
  intros F H. destruct (num_R 100 ltac:(lia)) as [F1 V1]. assert (G : gives64 (over v (num 100)) (value v / 100)). { rewrite <- V1. apply gives_div; [exact F|exact F1|]. fold (value (num 100)). rewrite V1. lra. }
  apply (finite_gives _ _ G). unfold Rdiv. rewrite Rabs_mult, (Rabs_pos_eq (/ 100)) by lra. pose proof (Rabs_pos (value v)). lra.
Qed.
Lemma percent_close v r : finite v -> u32_range r -> 0 <= value v <= 100 ->
  IZR (to_emu (percent v) r) - 1 / 2097152 <= value v / 100 * IZR r < IZR (to_emu (percent v) r) + 1 + 1 / 2097152.
Proof.
  intros F R H. destruct (percent_finite v F) as [G V]; [rewrite Rabs_pos_eq; lra|]. pose proof (rnd_int 0 (value v / 100) ltac:(lia)) as [_ A]. pose proof (rnd_int 1 (value v / 100) ltac:(lia)) as [B _].
  specialize (A ltac:(lra)). specialize (B ltac:(lra)). pose proof (ratio_close (over v (num 100)) r G R) as C. rewrite V in C. specialize (C (conj A B)). destruct C as [C1 C2].
  assert (E : Rabs (rnd (value v / 100) - value v / 100) <= / 18014398509481984). { apply (rnd_error 53 1024 _ 0); [discriminate|]. cbn. rewrite Rabs_pos_eq; lra. }
  apply Rabs_le_inv in E. unfold u32_range in R. assert (Q : 0 <= IZR r <= 4294967295) by (split; apply IZR_le; lia). unfold percent. set (e := IZR (to_emu _ _)) in *. set (x := rnd _) in *.
  assert (X : Rabs ((x - value v / 100) * IZR r) <= / 18014398509481984 * 4294967295).
  { rewrite Rabs_mult, (Rabs_pos_eq (IZR r)) by lra. apply Rmult_le_compat; [apply Rabs_pos|lra|apply Rabs_le; lra|lra]. }
  apply Rabs_le_inv in X. rewrite Rmult_minus_distr_r in X. lra.
Qed.
Lemma percent_ends v r : finite v -> u32_range r -> Rabs (value v) <= 18446744073709551616 -> (value v <= 0 -> to_emu (percent v) r = 0%Z) /\ (100 <= value v -> to_emu (percent v) r = r).
Proof.
  intros F R H. destruct (percent_finite v F H) as [G V]. destruct (ratio_ends _ r G R) as [A B]. rewrite V in A, B. split; intros L.
  - apply A. apply (proj1 (rnd_int 0 (value v / 100) ltac:(lia))). lra.
  - apply B. apply (rnd_int 1 (value v / 100)); [lia|lra].
Qed.
Lemma placed a b w h : finite a -> finite b -> u32_range w -> u32_range h -> 0 <= value a <= 1 -> 0 <= value b <= 1 ->
  let (x, y) := flex_to_emu_with (Ratio a, Ratio b) w h in whole_part x (value a * IZR w) /\ whole_part y (value b * IZR h).
Proof. intros. split; now apply ratio_close. Qed.
Lemma placed_default p : flex_to_emu p = flex_to_emu_with p 9144000 6858000.
Proof. reflexivity. Qed.
