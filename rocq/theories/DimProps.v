(** C78: measures become whole numbers of EMU, as the real numbers they stand for say. *)
From Coq Require Import ZArith Reals Lra Lia.
From Flocq Require Import Core IEEE754.BinarySingleNaN.
From Verif Require Import FloatModel DimModel DimSpec DimProofs.
Open Scope R_scope.

(** A measure that is not negative gives the whole part of its number of EMU. *)
Theorem C78_close : forall unit k v reference, measure unit k -> finite v -> 0 <= value v * k <= 4294967295 -> whole_part (to_emu (unit v) reference) (value v * k).
Proof. exact measure_close. Qed.
Print Assumptions C78_close.
Example C78_close_case : finite (num 2) /\ value (num 2) * (914400 / 72) = 25400 /\ to_emu (Pt (num 2)) 0 = 25400%Z.
Proof. destruct (num_R 2 ltac:(lia)) as [A B]. split; [exact A|]. split; [rewrite B; lra|now vm_compute]. Qed.

(** When the number of EMU is whole, it is given exactly. *)
Theorem C78_exact : forall unit k v reference z, measure unit k -> finite v -> u32_range z -> value v * k = IZR z -> to_emu (unit v) reference = z.
Proof. exact measure_exact. Qed.
Print Assumptions C78_exact.
Example C78_exact_case : let half := over (num 1) (num 2) in finite half /\ to_emu (Inches half) 0 = 457200%Z /\ to_emu (Cm half) 0 = 180000%Z /\ to_emu (Pt half) 0 = 6350%Z.
Proof. now vm_compute. Qed.

(** A longer measure never gives fewer EMU. *)
Theorem C78_grows : forall unit k v w reference, measure unit k -> finite v -> finite w -> value v <= value w -> (to_emu (unit v) reference <= to_emu (unit w) reference)%Z.
Proof. exact measure_mono. Qed.
Print Assumptions C78_grows.
Example C78_grows_case : (to_emu (Inches (num 1)) 0 < to_emu (Inches (num 2)) 0)%Z.
Proof. now vm_compute. Qed.

(** Whatever the number, infinite or none at all included, the EMU are of 32 bits; a
    negative measure gives none, one too long the most there are. *)
Theorem C78_range : forall d reference, (forall v, d = Emu v -> u32_range v) -> u32_range (to_emu d reference).
Proof. exact emu_range. Qed.
Print Assumptions C78_range.
Theorem C78_ends : forall unit k v reference, measure unit k -> (finite v -> value v <= 0 -> to_emu (unit v) reference = 0%Z) /\ (finite v -> 4294967295 <= value v * k -> to_emu (unit v) reference = 4294967295%Z)
  /\ to_emu (unit B754_nan) reference = 0%Z /\ to_emu (unit (B754_infinity true)) reference = 0%Z /\ to_emu (unit (B754_infinity false)) reference = 4294967295%Z.
Proof. exact measure_ends. Qed.
Print Assumptions C78_ends.
Example C78_ends_case : to_emu (Inches (num (-1))) 0 = 0%Z /\ to_emu (Inches (num 5000)) 0 = 4294967295%Z /\ to_emu (Inches (num 4697)) 0 = 4294936800%Z.
Proof. now vm_compute. Qed.

(** A ratio gives no more than the length it is taken of, all of it from 1 on and
    nothing up to 0; in between, the whole part of that share. *)
Theorem C78_ratio_within : forall v r, u32_range r -> (0 <= to_emu (Ratio v) r <= r)%Z.
Proof. exact ratio_within. Qed.
Print Assumptions C78_ratio_within.
Theorem C78_ratio_close : forall v r, finite v -> u32_range r -> 0 <= value v <= 1 -> whole_part (to_emu (Ratio v) r) (value v * IZR r).
Proof. exact ratio_close. Qed.
Print Assumptions C78_ratio_close.
Theorem C78_ratio_ends : forall v r, finite v -> u32_range r -> (value v <= 0 -> to_emu (Ratio v) r = 0%Z) /\ (1 <= value v -> to_emu (Ratio v) r = r).
Proof. exact ratio_ends. Qed.
Print Assumptions C78_ratio_ends.
Theorem C78_ratio_grows : forall v w r, finite v -> finite w -> u32_range r -> value v <= value w -> (to_emu (Ratio v) r <= to_emu (Ratio w) r)%Z.
Proof. exact ratio_mono. Qed.
Print Assumptions C78_ratio_grows.
Example C78_ratio_case : to_emu (Ratio (over (num 1) (num 3))) 9144000 = 3048000%Z /\ to_emu (Ratio (num 7)) 9144000 = 9144000%Z /\ to_emu (Ratio B754_nan) 9144000 = 0%Z.
Proof. now vm_compute. Qed.

(** A percentage is the ratio with 100 for 1. *)
Theorem C78_percent : forall v r, finite v -> u32_range r -> 0 <= value v <= 100 ->
  IZR (to_emu (percent v) r) - 1 / 2097152 <= value v / 100 * IZR r < IZR (to_emu (percent v) r) + 1 + 1 / 2097152.
Proof. exact percent_close. Qed.
Print Assumptions C78_percent.
Theorem C78_percent_ends : forall v r, finite v -> u32_range r -> Rabs (value v) <= 18446744073709551616 ->
  (value v <= 0 -> to_emu (percent v) r = 0%Z) /\ (100 <= value v -> to_emu (percent v) r = r).
Proof. exact percent_ends. Qed.
Print Assumptions C78_percent_ends.
Example C78_percent_case : to_emu (percent (num 25)) 9144000 = 2286000%Z /\ to_emu (percent (num 300)) 9144000 = 9144000%Z.
Proof. now vm_compute. Qed.

(** The first coordinate is a share of the width, the second of the height; without a
    size given, of a slide of 10 by 7.5 inches. *)
Theorem C78_placed : forall a b w h, finite a -> finite b -> u32_range w -> u32_range h -> 0 <= value a <= 1 -> 0 <= value b <= 1 ->
  let (x, y) := flex_to_emu_with (Ratio a, Ratio b) w h in whole_part x (value a * IZR w) /\ whole_part y (value b * IZR h).
Proof. exact placed. Qed.
Print Assumptions C78_placed.
Theorem C78_placed_default : forall p, flex_to_emu p = flex_to_emu_with p 9144000 6858000.
Proof. exact placed_default. Qed.
Print Assumptions C78_placed_default.
Example C78_placed_case : let half := over (num 1) (num 2) in flex_to_emu (Ratio half, Ratio half) = (4572000, 3429000)%Z.
Proof. now vm_compute. Qed.

(** Signed coordinates and angles are exact when whole, and keep the order. *)
Theorem C78_coordinate : forall v z, finite v -> (Z.abs z <= 9007199254740992)%Z -> (value v * 914400 = IZR z -> coordinate_inches v = z) /\ (value v * 360000 = IZR z -> coordinate_cm v = z)
  /\ ((-2147483648 <= z <= 2147483647)%Z -> value v * 60000 = IZR z -> rotation v = z).
Proof. exact coordinate_exact. Qed.
Print Assumptions C78_coordinate.
Theorem C78_coordinate_grows : forall v w, finite v -> finite w -> value v <= value w -> (coordinate_inches v <= coordinate_inches w)%Z /\ (coordinate_cm v <= coordinate_cm w)%Z /\ (rotation v <= rotation w)%Z.
Proof. exact coordinate_mono. Qed.
Print Assumptions C78_coordinate_grows.
Example C78_coordinate_case : coordinate_inches (num (-2)) = (-1828800)%Z /\ coordinate_cm (over (num (-5)) (num 2)) = (-900000)%Z /\ rotation (num 45) = 2700000%Z.
Proof. now vm_compute. Qed.

(** EMU turned into inches and back give the same number or one less. *)
Theorem C78_back : forall e, u32_range e -> let b := inches_to_emu (emu_to_inches e) in b = e \/ b = (e - 1)%Z.
Proof. exact there_and_back. Qed.
Print Assumptions C78_back.
(** Not always the same. *)
Theorem C78_back_refuted : u32_range 61 /\ inches_to_emu (emu_to_inches 61) = 60%Z.
Proof. now vm_compute. Qed.
Print Assumptions C78_back_refuted.
Example C78_back_case : u32_range 914400 /\ inches_to_emu (emu_to_inches 914400) = 914400%Z.
Proof. now vm_compute. Qed.

(** Nor is a measure written in decimals the number of EMU it would be: 0.57 inch is
    521208 EMU, 0.35 cm 126000 and 2.3 points 29210. *)
Theorem C78_decimal_refuted : (57 * 914400 = 521208 * 100)%Z /\ to_emu (Inches (over (num 57) (num 100))) 0 = 521207%Z
  /\ (35 * 360000 = 126000 * 100)%Z /\ to_emu (Cm (over (num 35) (num 100))) 0 = 125999%Z
  /\ (23 * 12700 = 29210 * 10)%Z /\ to_emu (Pt (over (num 23) (num 10))) 0 = 29209%Z.
Proof. now vm_compute. Qed.
Print Assumptions C78_decimal_refuted.

(** A picture scaled to a width keeps its proportions to within an EMU and a
    hundred-thousandth; so does one scaled to a height. *)
Theorem C78_scaled_width : forall w h n, u32_range w -> u32_range h -> u32_range n -> (0 < w)%Z -> (0 < h)%Z -> IZR n * IZR h / IZR w <= 4294967295 ->
  fst (scale_to_width w h n) = n /\ Rabs (IZR (snd (scale_to_width w h n)) - IZR n * IZR h / IZR w) <= 1 + 1 / 100000.
Proof. exact scaled_width. Qed.
Print Assumptions C78_scaled_width.
Theorem C78_scaled_height : forall w h n, u32_range w -> u32_range h -> u32_range n -> (0 < w)%Z -> (0 < h)%Z -> IZR n * IZR w / IZR h <= 4294967295 ->
  snd (scale_to_height w h n) = n /\ Rabs (IZR (fst (scale_to_height w h n)) - IZR n * IZR w / IZR h) <= 1 + 1 / 100000.
Proof. exact scaled_height. Qed.
Print Assumptions C78_scaled_height.
Example C78_scaled_case : scale_to_width 1920 1080 9144000 = (9144000, 5143500)%Z /\ scale_to_height 1920 1080 5143500 = (9144000, 5143500)%Z.
Proof. now vm_compute. Qed.
(** Scaling to its own width can shrink a picture, and one with no width, or no
    height, is stretched without bound or vanishes. *)
Theorem C78_scaled_refuted : scale_to_width 1 93 1 = (1, 92)%Z /\ scale_to_width 0 100 50 = (50, 4294967295)%Z /\ scale_to_width 100 0 50 = (50, 0)%Z /\ scale_to_height 100 0 50 = (4294967295, 50)%Z /\ scale_to_width 0 0 50 = (50, 0)%Z.
Proof. now vm_compute. Qed.
Print Assumptions C78_scaled_refuted.
