(** C81: gradient fills. *)
From Coq Require Import String List Bool NArith Sorted Permutation.
From Verif Require Import Str Num XmlSpec OpcSpec XmlPath LookSpec TableSpec GradModel GradSpec GradProofs.
Import ListNotations.
Open Scope string_scope.

(** A gradient made of stops in any number is written as well-formed XML that
    shows every stop in the order given: its place (at most 100 percent), its
    colour, its opacity; the angle of a linear one, the rings of another; and
    whether it turns with its shape. *)
Theorem C81_shown (k : grad_type) (d : grad_dir) (turns : bool) (l : list asked) :
  (degrees d * 60000 <= u32_max)%N -> Forall (fun a => color_ok (snd (fst a)) = true) l ->
  exists x, xml_read (grad_xml (gradient_of k d turns l)) = Some x /\ tag x = "a:gradFill"
  /\ attr_opt "rotWithShape" x = Some (if turns then "1" else "0") /\ seen x = map shown l /\ runs x = to_run k d.
Proof. exact (gradient_shown k d turns l). Qed.
Print Assumptions C81_shown.
Example C81_case : let l := [(0%N, "#ff0000", None); (250000%N, "00aa0F", Some 30%N)] in
  (degrees GUp * 60000 <= u32_max)%N /\ Forall (fun a : asked => color_ok (snd (fst a)) = true) l
  /\ map shown l = [("0", [("FF0000", [])]); ("100000", [("00AA0F", ["70000"])])] /\ to_run GLinear GUp = [("angle", "18900000")].
Proof. cbv zeta. split; [discriminate|]. split; [repeat constructor|]. split; reflexivity. Qed.
(** Sorting a gradient changes nothing but the order of its stops: they come in
    the order of their places, and those at one place in the order given. *)
Theorem C81_sorted (g : grad) :
  g_type (grad_sorted g) = g_type g /\ g_dir (grad_sorted g) = g_dir g /\ g_rotate (grad_sorted g) = g_rotate g
  /\ Permutation (g_stops (grad_sorted g)) (g_stops g) /\ StronglySorted before (g_stops (grad_sorted g))
  /\ forall p, at_place p (g_stops (grad_sorted g)) = at_place p (g_stops g).
Proof. exact (sorted_stops g). Qed.
Print Assumptions C81_sorted.
Example C81_sorted_case : let s := stop_new in
  g_stops (grad_sorted (Grad GLinear GDown [s 50%N "a"; s 20%N "b"; s 50%N "c"; s 20%N "d"] true)) = [s 20%N "b"; s 20%N "d"; s 50%N "a"; s 50%N "c"].
Proof. reflexivity. Qed.
(** The ready-made gradients are in order, from one end to the other. *)
Theorem C81_presets (g : grad) : In g presets ->
  StronglySorted before (g_stops g) /\ hd_error (map st_pos (g_stops g)) = Some 0%N /\ last (map st_pos (g_stops g)) 0%N = 100000%N.
Proof. exact (presets_ordered g). Qed.
Print Assumptions C81_presets.
(** An angle over 71582 degrees is written as another one. *)
Theorem C81_angle_refuted : exists n x, xml_read (grad_xml (gradient_of GLinear (GCustom n) true [])) = Some x
  /\ runs x <> to_run GLinear (GCustom n).
Proof. exists 71583%N. eexists. split; [vm_compute; reflexivity|]. vm_compute. discriminate. Qed.
Print Assumptions C81_angle_refuted.
(** A colour given as markup breaks the fill: it is written unescaped. *)
Theorem C81_color_refuted : exists c, xml_read (grad_xml (two_color c c)) = None.
Proof. exists "a<b". vm_compute. reflexivity. Qed.
Print Assumptions C81_color_refuted.
