(** C03: relationship targets resolve to normal paths inside the package. *)
From Coq Require Import String Ascii List Bool.
From Verif Require Import Str ResolveModel ResolveSpec ResolveProofs.
Import ListNotations.
Open Scope string_scope.

(** A relative target is walked from the source directory, segment by segment;
    the result is a path of proper names. *)
Theorem C03_resolves_by_walking (dir : list string) (target : string) (segs : list string) :
  Forall name dir -> starts_with "/" target = false -> segments target segs ->
  exists e, walks dir segs e /\ Forall name e /\ resolve_rel_target (path dir) target = path e.
Proof. exact (resolves dir target segs). Qed.
Print Assumptions C03_resolves_by_walking.
(** Every target string has segments, so the theorem above covers them all. *)
Theorem C03_every_target_has_segments (target : string) : exists segs, segments target segs.
Proof. exact (ex_intro _ _ (split_segments target)). Qed.
Print Assumptions C03_every_target_has_segments.
Example C03_case : Forall name ["ppt"; "slides"] /\ starts_with "/" "../media/./image1.png" = false
  /\ walks ["ppt"; "slides"] [".."; "media"; "."; "image1.png"] ["ppt"; "media"; "image1.png"]
  /\ resolve_rel_target "ppt/slides" "../media/./image1.png" = "ppt/media/image1.png" /\ resolve_rel_target "ppt" "../../../x.xml" = "x.xml".
Proof.
  split; [repeat constructor; discriminate|]. split; [reflexivity|]. split; [|split; reflexivity].
  apply (up ["ppt"]). apply down; [repeat split; discriminate|]. apply stay; [now left|]. apply down; [repeat split; discriminate|]. apply done.
Qed.
(** From one directory to a file below another. *)
Theorem C03_sibling_directory (d x y : list string) : Forall name d -> Forall name x -> Forall name y -> y <> [] ->
  resolve_rel_target (path (d ++ x)) (sjoin "/" (map (fun _ => "..") x ++ y)) = path (d ++ y).
Proof. exact (sibling d x y). Qed.
Print Assumptions C03_sibling_directory.
Theorem C03_below (d y : list string) : Forall name d -> Forall name y -> y <> [] -> resolve_rel_target (path d) (path y) = path (d ++ y).
Proof. exact (below d y). Qed.
Print Assumptions C03_below.
(** Absolute targets ignore the source directory. *)
Theorem C03_absolute (base : string) (y : list string) : Forall name y -> y <> [] -> resolve_rel_target base ("/" ++ path y) = path y.
Proof. exact (absolute base y). Qed.
Print Assumptions C03_absolute.
Theorem C03_absolute_ignores_source (b1 b2 target : string) : starts_with "/" target = true -> resolve_rel_target b1 target = resolve_rel_target b2 target.
Proof. exact (absolute_any b1 b2 target). Qed.
Print Assumptions C03_absolute_ignores_source.
(** The source directory of the relationship part of a part below the root. *)
Theorem C03_source_directory (d : list string) (f : string) : Forall name d -> d <> [] -> Forall (fun x => x <> "_rels") d ->
  sforall (fun c => negb (Ascii.eqb c "/")) f = true -> rels_source_dir (path d ++ "/_rels/" ++ f ++ ".rels") = path d.
Proof. exact (source_dir d f). Qed.
Print Assumptions C03_source_directory.
Example C03_source_case : rels_source_dir "_rels/.rels" = "" /\ rels_source_dir "ppt/slides/_rels/slide3.xml.rels" = "ppt/slides".
Proof. split; reflexivity. Qed.
(** False in general: dot segments of an absolute target are kept, and for a part
    in the root the source directory is wrong. *)
Theorem C03_absolute_dots_refuted : exists t, resolve_rel_target "ppt" t = "ppt/../x.xml".
Proof. exists "/ppt/../x.xml". reflexivity. Qed.
Print Assumptions C03_absolute_dots_refuted.
Theorem C03_root_part_refuted : exists f, sforall (fun c => negb (Ascii.eqb c "/")) f = true /\ rels_source_dir ("_rels/" ++ f ++ ".rels") = "_rels".
Proof. exists "custom.xml". split; reflexivity. Qed.
Print Assumptions C03_root_part_refuted.
