(** C24, C48: relationship collections. *)
From Coq Require Import String List NArith.
From Verif Require Import Str Num XmlSpec OpcSpec RelsModel RelsSpec RelsProofs.
Import ListNotations.
Open Scope string_scope.

(** [run l] is any history of [add] and [add_with_id]; [more] any later one. *)
Theorem C24_add_fresh (l : list op) (t : rtype) (tgt : string) : in_range l ->
  let '(i, s') := add t tgt (run l) in
  (forall r, In r (list_of (run l)) -> id r <> i) /\
  list_of s' = (list_of (run l) ++ [Relationship i t tgt])%list /\
  forall more, get i (fold_left step more s') = Some (Relationship i t tgt).
Proof. exact (add_fresh l t tgt). Qed.
Print Assumptions C24_add_fresh.

(** An explicit id keeps whatever is already stored under it. *)
Theorem C24_add_with_id_get (s : rels) (i : string) (t : rtype) (tgt : string) (more : list op) :
  get i (fold_left step more (add_with_id i t tgt s)) =
  match get i s with Some r => Some r | None => Some (Relationship i t tgt) end.
Proof. exact (with_id_get s i t tgt more). Qed.
Print Assumptions C24_add_with_id_get.

(** At the end of the u32 range a release build hands out an id in use. *)
Theorem C24_overflow_refuted : exists l t g,
  let '(i, _) := add t g (run l) in exists r, In r (list_of (run l)) /\ id r = i.
Proof.
  exists [AddWithId "rId0" Slide "a"; AddWithId "rId4294967295" Slide "b"], Slide, "c". vm_compute.
  eexists. split; [left; reflexivity|reflexivity].
Qed.
Print Assumptions C24_overflow_refuted.

Definition case : list op :=
  [Add Slide "slides/slide1.xml"; AddWithId "rId7" Theme "theme/theme1.xml"; AddWithId "image" Image "media/i.png"; Add Chart "c.xml"; AddWithId "rId+3" (Custom "u:x") "x"].
Lemma case_in_range : in_range case.
Proof.
  exists 7%N. split; [|vm_compute; discriminate].
  intros o n [<-|[<-|[<-|[<-|[<-|[]]]]]] H; vm_compute in H; try discriminate; injection H as <-; vm_compute; discriminate.
Qed.
Example C24_case : in_range case /\ fst (add Slide "s" (run case)) = "rId9" /\ length (list_of (run case)) = 5.
Proof. split; [exact case_in_range|]. split; vm_compute; reflexivity. Qed.

(** Writing a collection and parsing it back. *)
Theorem C48_relationships_round_trip (l : list op) : in_range l ->
  Forall (fun r => sforall plain_attr (id r) = true /\ sforall plain_attr (target r) = true /\ stable_type (rel_type r)) (list_of (run l)) ->
  from_xml (rels_xml (run l)) = Some (run l).
Proof. exact (rels_roundtrip l). Qed.
Print Assumptions C48_relationships_round_trip.

(** Any reader sees the stored relationships. *)
Theorem C48_relationships_read (s : rels) :
  Forall (fun r => sforall plain_attr (id r) = true /\ sforall plain_attr (target r) = true /\ sforall plain_attr (uri (rel_type r)) = true) (list_of s) ->
  rels_of (rels_xml s) = Some (map (fun r => Rel (id r) (uri (rel_type r)) (target r) "") (list_of s)).
Proof. exact (rels_spec_read s). Qed.
Print Assumptions C48_relationships_read.

Theorem C48_extended_properties_refuted :
  option_map (fun s => map rel_type (list_of s)) (from_xml (rels_xml (run [Add ExtendedProperties "docProps/app.xml"])))
  = Some [OfficeDocument].
Proof. vm_compute. reflexivity. Qed.
Print Assumptions C48_extended_properties_refuted.
Theorem C48_unescaped_target_refuted : from_xml (rels_xml (run [Add (Custom "u") "a?x=1&y=2"])) = None.
Proof. vm_compute. reflexivity. Qed.
Print Assumptions C48_unescaped_target_refuted.

Example C48_case : in_range case /\
  Forall (fun r => sforall plain_attr (id r) = true /\ sforall plain_attr (target r) = true /\ stable_type (rel_type r)) (list_of (run case)).
Proof. split; [exact case_in_range|]. vm_compute. repeat constructor. Qed.
