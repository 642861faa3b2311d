(** C22, C47: comment authors and comments. *)
From Coq Require Import String List NArith.
From Verif Require Import Str XmlSpec OpcSpec CommentsModel CommentsSpec CommentsProofs.
Import ListNotations.
Open Scope string_scope.

(** [l] is the sequence of [get_or_add name initials] calls on a new list. *)
Theorem C22_authors_stable (l : list (string * string)) : (N.of_nat (length l) <= 4294967295)%N ->
  let '(ids, s) := get_all l authors_new in
  length ids = length l /\
  (forall j k n i m i' a b, nth_error l j = Some (n, i) -> nth_error l k = Some (m, i') ->
     nth_error ids j = Some a -> nth_error ids k = Some b -> (a = b <-> n = m)) /\
  map (fun a => (au_name a, au_initials a)) (authors s) = firsts [] l /\
  map au_id (authors s) = map N.of_nat (seq 0 (length (authors s))) /\
  (forall j n i a, nth_error l j = Some (n, i) -> nth_error ids j = Some a ->
     exists x, get_by_id a s = Some x /\ au_id x = a /\ au_name x = n).
Proof. exact (authors_stable l). Qed.
Print Assumptions C22_authors_stable.

Example C22_case : fst (get_all [("A", "a"); ("B", "b"); ("A", "x"); ("C", "c")] authors_new) = [0; 1; 0; 2]%N /\
  firsts [] [("A", "a"); ("B", "b"); ("A", "x"); ("C", "c")] = [("A", "a"); ("B", "b"); ("C", "c")].
Proof. split; vm_compute; reflexivity. Qed.

Theorem C22_comment_indexes (l : list call) : (N.of_nat (length l) <= 4294967295)%N ->
  map co_index (add_calls l []) = map N.of_nat (seq 1 (length l)) /\
  map (fun c => (co_author c, co_text c, co_x c, co_y c)) (add_calls l []) = l.
Proof. exact (comment_indexes l). Qed.
Print Assumptions C22_comment_indexes.

(** Mixed with [add], two comments can get the same index. *)
Theorem C22_mixed_refuted : exists c, map co_index (add_comment 0 "b" 0 0 (add c [])) = [2; 2]%N.
Proof. exists (index 2 (comment_new 0 "a")). reflexivity. Qed.
Print Assumptions C22_mixed_refuted.

Theorem C47_authors_xml_reads_back (s : author_list) :
  Forall (fun a => attr_ok (au_name a) = true /\ attr_ok (au_initials a) = true) (authors s) ->
  read_authors (authors_xml s) =
  Some (map (fun a => (dec (au_id a), au_name a, au_initials a, dec (au_color a))) (authors s)).
Proof. exact (authors_read s). Qed.
Print Assumptions C47_authors_xml_reads_back.

Theorem C47_comments_xml_reads_back (l : list comment) :
  Forall (fun c => attr_ok (co_date c) = true /\ text_ok (co_text c) = true) l ->
  read_comments (comments_xml l) =
  Some (map (fun c => (dec (co_author c), co_date c, dec (co_index c), [co_text c], [(dec (co_x c), dec (co_y c))])) l).
Proof. exact (comments_read l). Qed.
Print Assumptions C47_comments_xml_reads_back.

Example C47_case :
  Forall (fun c => attr_ok (co_date c) = true /\ text_ok (co_text c) = true) (add_calls [(0%N, "a <b> & 'c'", 1%N, 2%N); (1%N, "", 3%N, 4%N)] []) /\
  Forall (fun a => attr_ok (au_name a) = true /\ attr_ok (au_initials a) = true) (authors (snd (get_all [("A&B", "a"); ("<x>", "b")] authors_new))).
Proof. split; repeat constructor. Qed.
