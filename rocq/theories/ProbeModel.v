(** Model of the image header readers of src/generator/images.rs.
    A byte slice is a list of bytes (N); reading or slicing out of bounds panics. *)
From Coq Require Import String List Bool NArith.
From Verif Require Import Str ColorModel.
Import ListNotations.
Open Scope N_scope.

Definition bytes : Type := list N.
(** [data[i]] *)
Definition at_ (d : bytes) (i : nat) : outcome N := match nth_error d i with Some b => Ret b | None => Panic end.
(** [&data[i..j]] *)
Definition sub (d : bytes) (i j : nat) : outcome bytes :=
  if Nat.leb i j && Nat.leb j (length d) then Ret (firstn (j - i) (skipn i d)) else Panic.
Fixpoint list_eqb (a b : bytes) : bool :=
  match a, b with [], [] => true | x :: a, y :: b => (x =? y) && list_eqb a b | _, _ => false end.
Fixpoint begins (p d : bytes) : bool :=
  match p, d with [] , _ => true | x :: p, y :: d => (x =? y) && begins p d | _, [] => false end.
(** from_be_bytes / from_le_bytes. *)
Definition be16 (a b : N) : N := a * 256 + b.
Definition le16 (a b : N) : N := b * 256 + a.
Definition be32 (a b c d : N) : N := be16 a b * 65536 + be16 c d.
Definition le32 (a b c d : N) : N := le16 c d * 65536 + le16 a b.

Inductive format := PNG | JPEG | GIF | BMP | WEBP.
Definition dims : Type := N * N * format.
Notation "'let!' x ':=' a 'in' b" := (bind a (fun x => b)) (at level 200, x name, a at level 100, b at level 200).

(** images.rs:775-797 [read_jpeg_dimensions]: the loop with fuel; [None] is
    running out of fuel. *)
Fixpoint jpeg_scan (fuel : nat) (d : bytes) (i : nat) : option (outcome (option dims)) :=
  match fuel with
  | O => None
  | S fuel =>
      if negb (Nat.ltb (i + 1) (length d)) then Some (Ret None)
      else match at_ d i with
      | Panic => Some Panic
      | Ret b =>
          if negb (b =? 255) then jpeg_scan fuel d (i + 1)
          else match at_ d (i + 1) with
          | Panic => Some Panic
          | Ret marker =>
              let i := (i + 2)%nat in
              if ((marker =? 192) || (marker =? 194)) && Nat.ltb (i + 7) (length d) then
                Some (let! h1 := at_ d (i + 3) in let! h2 := at_ d (i + 4) in
                      let! w1 := at_ d (i + 5) in let! w2 := at_ d (i + 6) in
                      Ret (Some (be16 w1 w2, be16 h1 h2, JPEG)))
              else if (192 <=? marker) && negb (marker =? 217) && negb (marker =? 218) && Nat.ltb (i + 1) (length d) then
                match at_ d i, at_ d (i + 1) with
                | Ret a, Ret b => jpeg_scan fuel d (i + N.to_nat (be16 a b))
                | _, _ => Some Panic
                end
              else jpeg_scan fuel d i
          end
      end
  end.
(** The scan looks at each position at most once. *)
Definition read_jpeg_dimensions (d : bytes) : option (outcome (option dims)) := jpeg_scan (S (length d)) d 2.

(** images.rs:725-772 [read_image_dimensions]. *)
Definition read_image_dimensions (d : bytes) : option (outcome (option dims)) :=
  if Nat.ltb (length d) 10 then Some (Ret None)
  else if begins [137; 80; 78; 71; 13; 10; 26; 10] d && Nat.leb 24 (length d) then
    Some (let! a := at_ d 16 in let! b := at_ d 17 in let! c := at_ d 18 in let! e := at_ d 19 in
          let! a' := at_ d 20 in let! b' := at_ d 21 in let! c' := at_ d 22 in let! e' := at_ d 23 in
          Ret (Some (be32 a b c e, be32 a' b' c' e', PNG)))
  else if begins [255; 216] d then read_jpeg_dimensions d
  else if begins [71; 73; 70; 56] d && Nat.leb 10 (length d) then
    Some (let! a := at_ d 6 in let! b := at_ d 7 in let! a' := at_ d 8 in let! b' := at_ d 9 in
          Ret (Some (le16 a b, le16 a' b', GIF)))
  else if begins [66; 77] d && Nat.leb 26 (length d) then
    Some (let! a := at_ d 18 in let! b := at_ d 19 in let! c := at_ d 20 in let! e := at_ d 21 in
          let! a' := at_ d 22 in let! b' := at_ d 23 in let! c' := at_ d 24 in let! e' := at_ d 25 in
          Ret (Some (le32 a b c e, le32 a' b' c' e', BMP)))
  else Some (
    let! webp := (if Nat.leb 30 (length d) then
                    let! riff := sub d 0 4 in
                    if list_eqb riff [82; 73; 70; 70] then let! w := sub d 8 12 in Ret (list_eqb w [87; 69; 66; 80]) else Ret false
                  else Ret false) in
    if webp then
      let! tag := sub d 12 16 in
      if list_eqb tag [86; 80; 56; 32] && Nat.leb 30 (length d) then
        let! a := at_ d 26 in let! b := at_ d 27 in let! a' := at_ d 28 in let! b' := at_ d 29 in
        Ret (Some (N.land (le16 a b) 16383, N.land (le16 a' b') 16383, WEBP))
      else if list_eqb tag [86; 80; 56; 76] && Nat.leb 25 (length d) then
        let! b0 := at_ d 21 in let! b1 := at_ d 22 in let! b2 := at_ d 23 in let! b3 := at_ d 24 in
        let bits := N.lor (N.lor (N.lor b0 (N.shiftl b1 8)) (N.shiftl b2 16)) (N.shiftl b3 24) in
        Ret (Some (N.land bits 16383 + 1, N.land (N.shiftr bits 14) 16383 + 1, WEBP))
      else Ret None
    else Ret None).

(** images.rs:476-495 [ImageBuilder::auto]: the detected format. *)
Definition auto_format (d : bytes) : outcome format :=
  if Nat.leb 4 (length d) then
    let! p := sub d 0 4 in
    if list_eqb p [137; 80; 78; 71] then Ret PNG
    else let! j := (if Nat.leb 2 (length d) then let! x := sub d 0 2 in Ret (list_eqb x [255; 216]) else Ret false) in
    if j then Ret JPEG
    else
      let! g9 := (if Nat.leb 6 (length d) then let! x := sub d 0 6 in Ret (list_eqb x [71; 73; 70; 56; 57; 97]) else Ret false) in
      if g9 then Ret GIF
      else let! x := sub d 0 6 in if list_eqb x [71; 73; 70; 56; 55; 97] then Ret GIF else Ret PNG
  else Ret PNG.
