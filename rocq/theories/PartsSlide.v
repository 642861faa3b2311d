(** Proofs: a slide as a part of its own. *)
From Coq Require Import String Ascii List Bool Arith NArith.
From Verif Require Import Str Num XmlSpec OpcSpec SlideModel SlideSpec SlideInput SlideWant ReaderModel SlideBackSpec SlideBackProofs RelsModel PartsModel PartsSpec.
Import ListNotations.
Open Scope string_scope.

Lemma spart_back n s : slide_ok s = true -> slide_fits s = true -> sizes_ok s = true ->
  exists q, spart_from n (spart_xml (spart_of n s)) = Some q /\ sp_number q = n /\ spart_xml q = spart_xml (spart_of n s)
    /\ spart_title q = match s_layout s with Blank => None | _ => Some (visible (s_title s)) end
    /\ spart_body q = filter nonblank (map b_text (shown_bullets s)).
Proof.
  intros A B C. destruct (slide_back s [] None A eq_refl B C) as (r & P & G). destruct G as (G1 & G2 & _).
  exists (SPart n None (Some r) (Some (slide_xml s [] None))). cbn [spart_of spart_xml sp_xml sp_content]. unfold spart_from. rewrite P. cbn [spart_title spart_body sp_parsed]. now repeat split.
Qed.
(** After reading, whatever slide is set is what is written. *)
Lemma spart_set n xml q s : spart_from n xml = Some q -> spart_xml (set_content s q) = spart_xml (spart_of n s).
Proof. intros _. reflexivity. Qed.
Lemma spart_kept n xml q : spart_from n xml = Some q -> spart_xml q = xml.
Proof. unfold spart_from. destruct (parse_slide xml); [|discriminate]. intros H. now inversion H. Qed.
Lemma spart_empty n : exists q, spart_from n (spart_xml (spart_new n)) = Some q /\ spart_title q = None /\ spart_body q = [].
Proof. eexists. split; [vm_compute; reflexivity|]. now split. Qed.
Lemma spart_layout p : rels_of (rels_xml (spart_rels p)) = Some [Rel "rId1" (doc_rel "slideLayout") "../slideLayouts/slideLayout1.xml" ""].
Proof. vm_compute. reflexivity. Qed.
Definition old_slide : slide := slide_new "Old".
Definition new_slide : slide := slide_new "New".
(** The title is the one read, whatever is set afterwards; before reading there is none. *)
Lemma spart_stale : exists n s t q, slide_ok s = true /\ slide_ok t = true /\ s_title s <> s_title t /\ spart_from n (spart_xml (spart_of n s)) = Some q
  /\ spart_title (set_content t q) = Some (s_title s) /\ spart_title (spart_of n t) = None.
Proof.
  exists 1, old_slide, new_slide. destruct (spart_back 1 old_slide) as (q & Q & _ & _ & T & _); [vm_compute; reflexivity..|]. exists q. repeat split; try (vm_compute; reflexivity); [discriminate|exact Q|].
  unfold spart_title in *. exact T.
Qed.
