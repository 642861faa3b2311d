From Coq Require Import List Bool Arith NArith Lia.
From Verif Require Import ColorModel ProbeModel ProbeSpec.
Import ListNotations.
Open Scope N_scope.

Lemma at_ok d i : (i < length d)%nat -> exists b, at_ d i = Ret b /\ nth_error d i = Some b.
Proof.
  intros H. unfold at_. destruct (nth_error d i) eqn:E; [eauto|]. apply nth_error_None in E. lia.
Qed.
Ltac get d i := let b := fresh "b" in let E := fresh "E" in
  destruct (at_ok d i) as (b & E & _); [lia|]; rewrite E; clear E; cbn [bind].
Lemma sub_ok d i j : (i <= j)%nat -> (j <= length d)%nat -> exists x, sub d i j = Ret x.
Proof. intros A B. unfold sub. apply Nat.leb_le in A, B. rewrite A, B. eexists; reflexivity. Qed.

Lemma jpeg_total d : forall fuel i, (length d + 2 <= fuel + i)%nat -> (0 < fuel)%nat -> exists r, jpeg_scan fuel d i = Some (Ret r).
Proof.
  induction fuel as [|fuel IH]; intros i H P; [lia|]. cbn [jpeg_scan].
  destruct (Nat.ltb_spec (i + 1) (length d)) as [L|L]; cbn [negb]; [|eexists; reflexivity].
  assert (F : (0 < fuel)%nat) by lia.
  get d i. destruct (b =? 255); cbn [negb]; [|apply IH; lia].
  get d (i + 1)%nat. cbv zeta.
  destruct (((b0 =? 192) || (b0 =? 194)) && Nat.ltb (i + 2 + 7) (length d)) eqn:C.
  - apply andb_true_iff in C. destruct C as [_ C]. apply Nat.ltb_lt in C.
    get d (i + 2 + 3)%nat. get d (i + 2 + 4)%nat. get d (i + 2 + 5)%nat. get d (i + 2 + 6)%nat. eexists; reflexivity.
  - destruct ((192 <=? b0) && negb (b0 =? 217) && negb (b0 =? 218) && Nat.ltb (i + 2 + 1) (length d)) eqn:C2.
    + apply andb_true_iff in C2. destruct C2 as [_ C2]. apply Nat.ltb_lt in C2. get d (i + 2)%nat. get d (i + 2 + 1)%nat. apply IH; lia.
    + apply IH; lia.
Qed.
Lemma read_jpeg_total d : exists r, read_jpeg_dimensions d = Some (Ret r).
Proof. apply jpeg_total; lia. Qed.

Lemma read_total d : exists r, read_image_dimensions d = Some (Ret r).
Proof.
  unfold read_image_dimensions. destruct (Nat.ltb_spec (length d) 10); [eexists; reflexivity|].
  destruct (begins _ d && Nat.leb 24 (length d)) eqn:C1.
  { apply andb_true_iff in C1. destruct C1 as [_ C1]. apply Nat.leb_le in C1.
    get d 16%nat. get d 17%nat. get d 18%nat. get d 19%nat. get d 20%nat. get d 21%nat. get d 22%nat. get d 23%nat. eexists; reflexivity. }
  destruct (begins [255; 216] d); [apply read_jpeg_total|].
  destruct (begins [71; 73; 70; 56] d && Nat.leb 10 (length d)).
  { get d 6%nat. get d 7%nat. get d 8%nat. get d 9%nat. eexists; reflexivity. }
  destruct (begins [66; 77] d && Nat.leb 26 (length d)) eqn:C2.
  { apply andb_true_iff in C2. destruct C2 as [_ C2]. apply Nat.leb_le in C2.
    get d 18%nat. get d 19%nat. get d 20%nat. get d 21%nat. get d 22%nat. get d 23%nat. get d 24%nat. get d 25%nat. eexists; reflexivity. }
  destruct (Nat.leb_spec 30 (length d)); [|eexists; reflexivity].
  destruct (sub_ok d 0 4) as [x ->]; [lia..|]. cbn [bind]. destruct (list_eqb x _); [|eexists; reflexivity].
  destruct (sub_ok d 8 12) as [y ->]; [lia..|]. cbn [bind]. destruct (list_eqb y _); [|eexists; reflexivity].
  destruct (sub_ok d 12 16) as [z ->]; [lia..|]. cbn [bind].
  destruct (list_eqb z _ && _).
  { get d 26%nat. get d 27%nat. get d 28%nat. get d 29%nat. eexists; reflexivity. }
  destruct (list_eqb z _ && _); [|eexists; reflexivity].
  get d 21%nat. get d 22%nat. get d 23%nat. get d 24%nat. eexists; reflexivity.
Qed.

(** ** Exactness *)
Lemma le2 n : n < 65536 -> exists a b, le 2 n = [a; b] /\ le16 a b = n.
Proof.
  intros H. exists (n mod 256), (n / 256 mod 256). split; [reflexivity|]. unfold le16.
  rewrite (N.mod_small (n / 256)) by (apply N.div_lt_upper_bound; lia). rewrite (N.div_mod n 256) at 3 by lia. lia.
Qed.
Lemma le4 n : n < 4294967296 -> exists a b c d, le 4 n = [a; b; c; d] /\ le32 a b c d = n /\ a < 256 /\ b < 256 /\ c < 256 /\ d < 256.
Proof.
  intros H. exists (n mod 256), (n / 256 mod 256), (n / 256 / 256 mod 256), (n / 256 / 256 / 256 mod 256).
  split; [reflexivity|]. split; [|repeat split; apply N.mod_lt; lia]. unfold le32, le16.
  rewrite (N.mod_small (n / 256 / 256 / 256)) by (repeat (apply N.div_lt_upper_bound; [lia|]); lia).
  pose proof (N.div_mod n 256 ltac:(lia)). pose proof (N.div_mod (n / 256) 256 ltac:(lia)). pose proof (N.div_mod (n / 256 / 256) 256 ltac:(lia)). lia.
Qed.
Lemma be2 n : n < 65536 -> exists a b, be 2 n = [a; b] /\ be16 a b = n.
Proof. intros H. destruct (le2 n H) as (a & b & E & V). exists b, a. unfold be. rewrite E. split; [reflexivity|exact V]. Qed.
Lemma be4 n : n < 4294967296 -> exists a b c d, be 4 n = [a; b; c; d] /\ be32 a b c d = n.
Proof.
  intros H. destruct (le4 n H) as (a & b & c & d & E & V & _). exists d, c, b, a. unfold be. rewrite E. split; [reflexivity|].
  unfold be32, be16. unfold le32, le16 in V. lia.
Qed.
Lemma list8 (l : list N) : length l = 8%nat -> exists a b c d e f g h, l = [a; b; c; d; e; f; g; h].
Proof. destruct l as [|a [|b [|c [|d [|e [|f [|g [|h [|i l]]]]]]]]]; try discriminate. intros _. repeat eexists. Qed.

Lemma png_exact w h junk rest : w < 4294967296 -> h < 4294967296 -> length junk = 8%nat ->
  read_image_dimensions (png w h junk rest) = Some (Ret (Some (w, h, PNG))).
Proof.
  intros W H J. destruct (list8 junk J) as (j1 & j2 & j3 & j4 & j5 & j6 & j7 & j8 & ->).
  destruct (be4 w W) as (a & b & c & d & Ew & Vw). destruct (be4 h H) as (a' & b' & c' & d' & Eh & Vh).
  unfold png. rewrite Ew, Eh. cbn [app]. unfold read_image_dimensions. cbn [length Nat.ltb Nat.leb begins N.eqb Pos.eqb andb at_ nth_error bind].
  now rewrite Vw, Vh.
Qed.
Lemma gif_exact w h v1 v2 rest : w < 65536 -> h < 65536 ->
  read_image_dimensions (gif w h v1 v2 rest) = Some (Ret (Some (w, h, GIF))).
Proof.
  intros W H. destruct (le2 w W) as (a & b & Ew & Vw). destruct (le2 h H) as (a' & b' & Eh & Vh).
  unfold gif. rewrite Ew, Eh. cbn [app]. unfold read_image_dimensions. cbn [length Nat.ltb Nat.leb begins N.eqb Pos.eqb andb at_ nth_error bind].
  now rewrite Vw, Vh.
Qed.
Lemma list16 (l : list N) : length l = 16%nat -> exists a b c d e f g h a' b' c' d' e' f' g' h', l = [a; b; c; d; e; f; g; h; a'; b'; c'; d'; e'; f'; g'; h'].
Proof.
  intros H. destruct (list8 (firstn 8 l)) as (a & b & c & d & e & f & g & h & E1); [rewrite firstn_length; lia|].
  destruct (list8 (skipn 8 l)) as (a' & b' & c' & d' & e' & f' & g' & h' & E2); [rewrite skipn_length; lia|].
  rewrite <- (firstn_skipn 8 l), E1, E2. repeat eexists.
Qed.
Lemma bmp_exact w h junk rest : w < 4294967296 -> h < 4294967296 -> length junk = 16%nat ->
  read_image_dimensions (bmp w h junk rest) = Some (Ret (Some (w, h, BMP))).
Proof.
  intros W H J. destruct (list16 junk J) as (j1 & j2 & j3 & j4 & j5 & j6 & j7 & j8 & j9 & j10 & j11 & j12 & j13 & j14 & j15 & j16 & ->).
  destruct (le4 w W) as (a & b & c & d & Ew & Vw & _). destruct (le4 h H) as (a' & b' & c' & d' & Eh & Vh & _).
  unfold bmp. rewrite Ew, Eh. cbn [app]. unfold read_image_dimensions. cbn [length Nat.ltb Nat.leb begins N.eqb Pos.eqb andb at_ nth_error bind].
  now rewrite Vw, Vh.
Qed.
Lemma land_low w s : w < 16384 -> N.land (w + 16384 * s) 16383 = w.
Proof.
  intros H. change 16383 with (N.ones 14). rewrite N.land_ones. change (2 ^ 14) with 16384.
  rewrite N.mul_comm, N.mod_add by lia. now apply N.mod_small.
Qed.
Lemma lossy_exact w h sw sh size junk rest : w < 16384 -> h < 16384 -> sw < 4 -> sh < 4 -> length size = 4%nat -> length junk = 10%nat ->
  read_image_dimensions (webp_lossy w h sw sh size junk rest) = Some (Ret (Some (w, h, WEBP))).
Proof.
  intros W H SW SH Z J. destruct size as [|z1 [|z2 [|z3 [|z4 [|]]]]]; try discriminate.
  destruct junk as [|j1 [|j2 [|j3 [|j4 [|j5 [|j6 [|j7 [|j8 [|j9 [|j10 [|]]]]]]]]]]]; try discriminate.
  destruct (le2 (w + 16384 * sw)) as (a & b & Ew & Vw); [lia|]. destruct (le2 (h + 16384 * sh)) as (a' & b' & Eh & Vh); [lia|].
  unfold webp_lossy. rewrite Ew, Eh. cbn [app]. unfold read_image_dimensions.
  cbn [length Nat.ltb Nat.leb begins N.eqb Pos.eqb andb at_ nth_error bind sub Nat.sub firstn skipn list_eqb].
  now rewrite Vw, Vh, !land_low.
Qed.
Lemma bits_le32 a b c d : a < 256 -> b < 256 -> c < 256 -> d < 256 ->
  N.lor (N.lor (N.lor a (N.shiftl b 8)) (N.shiftl c 16)) (N.shiftl d 24) = le32 a b c d.
Proof.
  intros A B C D.
  assert (S : forall x y k, x < 2 ^ k -> N.lor x (N.shiftl y k) = x + y * 2 ^ k).
  { intros x y k Hx. rewrite N.shiftl_mul_pow2. assert (Z : N.land x (y * 2 ^ k) = 0).
    { rewrite <- N.shiftl_mul_pow2. apply N.bits_inj. intros i. rewrite N.land_spec, N.bits_0.
      destruct (N.lt_ge_cases i k) as [L|L]; [now rewrite N.shiftl_spec_low, andb_false_r|].
      destruct (N.eq_dec x 0) as [->|Nx]; [now rewrite N.bits_0|].
      rewrite (N.bits_above_log2 x i); [reflexivity|]. apply N.log2_lt_pow2 in Hx; lia. }
    now rewrite <- N.lxor_lor, <- N.add_nocarry_lxor. }
  rewrite (S a b 8) by exact A. rewrite (S (a + b * 2 ^ 8) c 16) by (change (2 ^ 8) with 256; change (2 ^ 16) with 65536; lia).
  rewrite (S _ d 24) by (change (2 ^ 8) with 256; change (2 ^ 16) with 65536; change (2 ^ 24) with 16777216; lia).
  unfold le32, le16. change (2 ^ 8) with 256; change (2 ^ 16) with 65536; change (2 ^ 24) with 16777216. lia.
Qed.
Lemma lossless_exact w h top size junk rest : 1 <= w <= 16384 -> 1 <= h <= 16384 -> top < 16 -> length size = 4%nat -> length junk = 5%nat -> (5 <= length rest)%nat ->
  read_image_dimensions (webp_lossless w h top size junk rest) = Some (Ret (Some (w, h, WEBP))).
Proof.
  intros W H T Z J R. destruct size as [|z1 [|z2 [|z3 [|z4 [|]]]]]; try discriminate.
  destruct junk as [|j1 [|j2 [|j3 [|j4 [|j5 [|]]]]]]; try discriminate.
  destruct rest as [|r1 [|r2 [|r3 [|r4 [|r5 rest]]]]]; cbn [length] in R; try lia.
  set (n := (w - 1) + 16384 * (h - 1) + 268435456 * top).
  destruct (le4 n) as (a & b & c & d & E & V & A & B & C & D); [subst n; lia|].
  unfold webp_lossless. fold n. rewrite E. cbn [app]. unfold read_image_dimensions.
  cbn [length Nat.ltb Nat.leb begins N.eqb Pos.eqb andb at_ nth_error bind sub Nat.sub firstn skipn list_eqb]. cbv zeta.
  rewrite bits_le32, V by assumption. subst n. do 4 f_equal. f_equal.
  - replace (w - 1 + 16384 * (h - 1) + 268435456 * top) with ((w - 1) + 16384 * ((h - 1) + 16384 * top)) by lia. rewrite land_low by lia. lia.
  - replace (w - 1 + 16384 * (h - 1) + 268435456 * top) with ((w - 1) + ((h - 1) + 16384 * top) * 16384) by lia.
    rewrite N.shiftr_div_pow2. change (2 ^ 14) with 16384. rewrite N.div_add, (N.div_small (w - 1)), N.add_0_l, land_low by lia. lia.
Qed.

(** JPEG *)
Lemma nth_pre (pre : list N) x post : nth_error (pre ++ x :: post) (length pre) = Some x.
Proof. rewrite nth_error_app2, Nat.sub_diag by lia. reflexivity. Qed.
Lemma at_pre pre post k : at_ (pre ++ post)%list (length pre + k) = at_ post k.
Proof. unfold at_. rewrite nth_error_app2 by lia. replace (length pre + k - length pre)%nat with k by lia. reflexivity. Qed.

Lemma scan_marker fuel pre m post : jpeg_scan (S fuel) (pre ++ 255 :: m :: post) (length pre) =
  let d := (pre ++ 255 :: m :: post)%list in let i := (length pre + 2)%nat in
  if ((m =? 192) || (m =? 194)) && Nat.ltb (i + 7) (length d) then
    Some (let! h1 := at_ d (i + 3) in let! h2 := at_ d (i + 4) in
          let! w1 := at_ d (i + 5) in let! w2 := at_ d (i + 6) in
          Ret (Some (be16 w1 w2, be16 h1 h2, JPEG)))
  else if (192 <=? m) && negb (m =? 217) && negb (m =? 218) && Nat.ltb (i + 1) (length d) then
    match at_ d i, at_ d (i + 1) with
    | Ret a, Ret b => jpeg_scan fuel d (i + N.to_nat (be16 a b))
    | _, _ => Some Panic
    end
  else jpeg_scan fuel d i.
Proof.
  cbn [jpeg_scan].
  assert (A : at_ (pre ++ 255 :: m :: post) (length pre) = Ret 255).
  { rewrite <- (Nat.add_0_r (length pre)). now rewrite at_pre. }
  assert (B : at_ (pre ++ 255 :: m :: post) (length pre + 1) = Ret m) by now rewrite at_pre.
  destruct (Nat.ltb_spec (length pre + 1) (length (pre ++ 255 :: m :: post))) as [L|L];
    [|rewrite app_length in L; cbn [length] in L; lia]. cbn [negb].
  rewrite A, B. reflexivity.
Qed.

Lemma jpeg_exact segs sof flen prec ncomp w h rest : Forall segment_ok segs -> (sof = 192 \/ sof = 194) -> flen < 65536 -> w < 65536 -> h < 65536 ->
  read_image_dimensions (jpeg segs sof flen prec ncomp w h rest) = Some (Ret (Some (w, h, JPEG))).
Proof.
  intros S K FL W H. destruct (be2 w W) as (w1 & w2 & Ew & Vw). destruct (be2 h H) as (h1 & h2 & Eh & Vh). destruct (be2 flen FL) as (f1 & f2 & Ef & _).
  set (tail := ([255; sof] ++ be 2 flen ++ [prec] ++ be 2 h ++ be 2 w ++ [ncomp] ++ rest)%list).
  assert (Tail : (tail = [255; sof; f1; f2; prec; h1; h2; w1; w2; ncomp] ++ rest)%list) by (subst tail; rewrite Ew, Eh, Ef; reflexivity).
  assert (Scan : forall segs pre fuel, Forall segment_ok segs -> (length (pre ++ flat_map segment_bytes segs ++ tail) + 2 <= fuel + length pre)%nat ->
    jpeg_scan fuel (pre ++ flat_map segment_bytes segs ++ tail) (length pre) = Some (Ret (Some (w, h, JPEG)))).
  { clear S segs. induction segs as [|s segs IH]; intros pre fuel S B.
    - cbn [flat_map] in *. change ([] ++ tail)%list with tail in *. rewrite Tail in *. cbn [app] in *. rewrite app_length in B. cbn [length] in B.
      destruct fuel as [|fuel]; [lia|]. rewrite scan_marker. cbv zeta.
      replace (((sof =? 192) || (sof =? 194)) && Nat.ltb (length pre + 2 + 7) (length (pre ++ 255 :: sof :: f1 :: f2 :: prec :: h1 :: h2 :: w1 :: w2 :: ncomp :: rest)))%bool with true.
      2:{ symmetry. apply andb_true_iff. split; [now destruct K as [-> | ->]|]. apply Nat.ltb_lt. rewrite app_length. cbn [length]. lia. }
      rewrite <- !Nat.add_assoc. rewrite !at_pre. cbn [Nat.add at_ nth_error bind]. now rewrite Vw, Vh.
    - inversion S as [|? ? So S']; subst. destruct So as ((M1 & M2) & N1 & N2 & N3 & N4 & LB).
      destruct (be2 (N.of_nat (length (payload s)) + 2) LB) as (l1 & l2 & El & Vl).
      assert (E : (pre ++ flat_map segment_bytes (s :: segs) ++ tail = (pre ++ segment_bytes s) ++ flat_map segment_bytes segs ++ tail)%list).
      { cbn [flat_map]. now rewrite <- !app_assoc. }
      assert (Lp : length (pre ++ segment_bytes s) = (length pre + 2 + N.to_nat (be16 l1 l2))%nat).
      { rewrite app_length. unfold segment_bytes. rewrite El, Vl. cbn [app length]. lia. }
      destruct fuel as [|fuel]; [rewrite app_length in B; lia|].
      assert (X : (pre ++ flat_map segment_bytes (s :: segs) ++ tail = pre ++ 255 :: marker s :: l1 :: l2 :: (payload s ++ flat_map segment_bytes segs ++ tail))%list).
      { rewrite E, <- app_assoc. unfold segment_bytes at 1. rewrite El. cbn [app]. reflexivity. }
      rewrite X, scan_marker. cbv zeta.
      destruct (N.eqb_spec (marker s) 192); [contradiction|]. destruct (N.eqb_spec (marker s) 194); [contradiction|]. cbn [orb andb].
      replace ((192 <=? marker s) && negb (marker s =? 217) && negb (marker s =? 218) && Nat.ltb (length pre + 2 + 1) (length (pre ++ 255 :: marker s :: l1 :: l2 :: payload s ++ flat_map segment_bytes segs ++ tail)))%bool with true.
      2:{ symmetry. rewrite !andb_true_iff. repeat split; [now apply N.leb_le|now apply negb_true_iff, N.eqb_neq|now apply negb_true_iff, N.eqb_neq|].
          apply Nat.ltb_lt. rewrite app_length. cbn [length]. lia. }
      rewrite <- (Nat.add_assoc (length pre) 2 1), !at_pre. cbn [Nat.add at_ nth_error].
      rewrite <- X, E, <- Lp. apply IH; [exact S'|]. rewrite <- E. rewrite Lp. lia. }
  unfold jpeg. fold tail. unfold read_image_dimensions.
  destruct (Nat.ltb_spec (length ([255; 216] ++ flat_map segment_bytes segs ++ tail)) 10) as [L|L].
  { rewrite Tail, !app_length in L. cbn [length] in L. lia. }
  change (begins [137; 80; 78; 71; 13; 10; 26; 10] ([255; 216] ++ flat_map segment_bytes segs ++ tail)) with false. cbn [andb].
  change (begins [255; 216] ([255; 216] ++ flat_map segment_bytes segs ++ tail)) with true. cbv iota.
  unfold read_jpeg_dimensions. apply (Scan segs [255; 216]); [exact S|]. cbn [length]. lia.
Qed.

Lemma auto_panics d : auto_format d = Panic <->
  (length d = 4 \/ length d = 5)%nat /\ begins [137; 80; 78; 71] d = false /\ begins [255; 216] d = false.
Proof.
  unfold auto_format. destruct d as [|a [|b [|c [|e d]]]]; cbn [length Nat.leb];
    try (split; [discriminate|intros [[H|H] _]; cbn in H; discriminate]).
  cbn [sub Nat.leb length andb Nat.sub firstn skipn bind].
  replace (list_eqb [a; b; c; e] [137; 80; 78; 71]) with (begins [137; 80; 78; 71] (a :: b :: c :: e :: d)).
  2:{ cbn [begins list_eqb]. rewrite !(N.eqb_sym _ a), !(N.eqb_sym _ b), !(N.eqb_sym _ c), !(N.eqb_sym _ e). now rewrite andb_true_r. }
  destruct (begins [137; 80; 78; 71] _) eqn:P; [split; [discriminate|intros (_ & H & _); discriminate]|].
  replace (list_eqb [a; b] [255; 216]) with (begins [255; 216] (a :: b :: c :: e :: d)).
  2:{ cbn [begins list_eqb]. rewrite !(N.eqb_sym _ a), !(N.eqb_sym _ b). now rewrite andb_true_r. }
  destruct (begins [255; 216] _) eqn:J; [split; [discriminate|intros (_ & _ & H); discriminate]|].
  destruct d as [|f [|g d]]; cbn [length Nat.leb bind andb Nat.sub firstn skipn].
  - split; [intros _; auto|reflexivity].
  - split; [intros _; auto|reflexivity].
  - split; [|intros [[H|H] _]; cbn in H; discriminate].
    cbn [sub length Nat.leb bind andb Nat.sub firstn skipn].
    repeat match goal with |- context [if ?b then _ else _] => destruct b end; discriminate.
Qed.
Lemma begins_iff p : forall d, begins p d = true <-> exists r, d = (p ++ r)%list.
Proof.
  induction p as [|x p IH]; intros d; [split; [now exists d|reflexivity]|]. destruct d as [|y d]; cbn [begins].
  - split; [discriminate|]. intros [r E]. discriminate.
  - rewrite andb_true_iff, N.eqb_eq, IH. split.
    + intros [-> [r ->]]. now exists r.
    + intros [r E]. injection E as -> ->. split; [reflexivity|now exists r].
Qed.
Lemma auto_detects d : (4 <= length d)%nat -> auto_format d <> Panic ->
  auto_format d = Ret (if begins [137; 80; 78; 71] d then PNG else if begins [255; 216] d then JPEG
    else if begins [71; 73; 70; 56; 57; 97] d || begins [71; 73; 70; 56; 55; 97] d then GIF else PNG).
Proof.
  intros L. unfold auto_format. destruct d as [|a [|b [|c [|e d]]]]; cbn in L; try lia. clear L.
  cbn [length Nat.leb]. cbn [sub Nat.leb length andb Nat.sub firstn skipn bind].
  replace (list_eqb [a; b; c; e] [137; 80; 78; 71]) with (begins [137; 80; 78; 71] (a :: b :: c :: e :: d)).
  2:{ cbn [begins list_eqb]. rewrite !(N.eqb_sym _ a), !(N.eqb_sym _ b), !(N.eqb_sym _ c), !(N.eqb_sym _ e). now rewrite andb_true_r. }
  destruct (begins [137; 80; 78; 71] _) eqn:P; [reflexivity|].
  replace (list_eqb [a; b] [255; 216]) with (begins [255; 216] (a :: b :: c :: e :: d)).
  2:{ cbn [begins list_eqb]. rewrite !(N.eqb_sym _ a), !(N.eqb_sym _ b). now rewrite andb_true_r. }
  destruct (begins [255; 216] _) eqn:J; [reflexivity|].
  destruct d as [|f [|g d]]; cbn [length Nat.leb bind andb Nat.sub firstn skipn]; [intros H; exfalso; apply H; reflexivity..|].
  intros _. cbn [sub length Nat.leb bind andb Nat.sub firstn skipn].
  assert (Q : forall u v w x y z, list_eqb [a; b; c; e; f; g] [u; v; w; x; y; z] = begins [u; v; w; x; y; z] (a :: b :: c :: e :: f :: g :: d)).
  { intros. cbn [begins list_eqb]. rewrite !(N.eqb_sym _ a), !(N.eqb_sym _ b), !(N.eqb_sym _ c), !(N.eqb_sym _ e), !(N.eqb_sym _ f), !(N.eqb_sym _ g). reflexivity. }
  rewrite !Q. destruct (begins [71; 73; 70; 56; 57; 97] _); cbn [orb]; [reflexivity|]. destruct (begins [71; 73; 70; 56; 55; 97] _); reflexivity.
Qed.
Lemma auto_images : (forall w h junk rest, auto_format (png w h junk rest) = Ret PNG)
  /\ (forall segs sof flen prec ncomp w h rest, auto_format (jpeg segs sof flen prec ncomp w h rest) = Ret JPEG)
  /\ (forall w h v rest, v = 55 \/ v = 57 -> auto_format (gif w h v 97 rest) = Ret GIF)
  /\ (forall d, (4 <= length d)%nat -> auto_format d = Ret JPEG -> exists r, d = (255 :: 216 :: r)%list)
  /\ (forall d, auto_format d = Ret GIF -> exists v r, (v = 55 \/ v = 57) /\ d = (71 :: 73 :: 70 :: 56 :: v :: 97 :: r)%list)
  /\ (forall d, auto_format d <> Ret BMP /\ auto_format d <> Ret WEBP).
Proof.
  assert (S : forall d, (length d < 4)%nat -> auto_format d = Ret PNG).
  { intros d L. unfold auto_format. destruct (Nat.leb_spec 4 (length d)); [lia|reflexivity]. }
  assert (W : forall d f, auto_format d = Ret f -> (4 <= length d)%nat ->
    f = (if begins [137; 80; 78; 71] d then PNG else if begins [255; 216] d then JPEG
    else if begins [71; 73; 70; 56; 57; 97] d || begins [71; 73; 70; 56; 55; 97] d then GIF else PNG)).
  { intros d f E L. rewrite auto_detects in E; [congruence|exact L|congruence]. }
  split; [|split; [|split; [|split; [|split]]]].
  - intros. rewrite auto_detects; [reflexivity|cbn; lia|]. intros E. apply auto_panics in E. destruct E as (_ & E & _). discriminate E.
  - intros. assert (L : (4 <= length (jpeg segs sof flen prec ncomp w h rest))%nat) by (unfold jpeg; rewrite !app_length; cbn; lia).
    rewrite auto_detects; [reflexivity|exact L|]. intros E. apply auto_panics in E. destruct E as (_ & _ & E). discriminate E.
  - intros w h v rest V. rewrite auto_detects; [|cbn; lia|].
    + destruct V as [->| ->]; reflexivity.
    + intros E. apply auto_panics in E. destruct E as ([E|E] & _); cbn in E; discriminate E.
  - intros d L E. apply W in E; [|exact L]. destruct (begins [137; 80; 78; 71] d); [discriminate|].
    destruct (begins [255; 216] d) eqn:J; [|destruct (_ || _); discriminate]. apply begins_iff in J. destruct J as [r ->]. now exists r.
  - intros d E. assert (L : (4 <= length d)%nat) by (destruct (Nat.le_gt_cases 4 (length d)); [assumption|rewrite S in E by assumption; discriminate]).
    apply W in E; [|exact L]. destruct (begins [137; 80; 78; 71] d); [discriminate|]. destruct (begins [255; 216] d); [discriminate|].
    destruct (begins [71; 73; 70; 56; 57; 97] d) eqn:A.
    + apply begins_iff in A. destruct A as [r ->]. exists 57, r. auto.
    + destruct (begins [71; 73; 70; 56; 55; 97] d) eqn:B; [|discriminate]. apply begins_iff in B. destruct B as [r ->]. exists 55, r. auto.
  - intros d. destruct (Nat.le_gt_cases 4 (length d)) as [L|L].
    + split; intros E; apply W in E; try exact L; destruct (begins [137; 80; 78; 71] d), (begins [255; 216] d), (begins [71; 73; 70; 56; 57; 97] d), (begins [71; 73; 70; 56; 55; 97] d); discriminate.
    + rewrite S by exact L. split; discriminate.
Qed.
