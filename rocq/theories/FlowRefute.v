(** A flowchart with everything in it, and charts that are not drawn as they read. *)
From Coq Require Import String Ascii List Bool Arith NArith Permutation.
From Verif Require Import Str ShapeModel ConnectorModel FlowModel FlowSpec.
Import ListNotations.
Open Scope nat_scope.
Open Scope string_scope.

(** ASCII letters, digits and the underscore. *)
Definition word_char (c : ascii) : bool :=
  let n := nat_of_ascii c in (Nat.leb 48 n && Nat.leb n 57) || (Nat.leb 65 n && Nat.leb n 90) || (Nat.leb 97 n && Nat.leb n 122) || Nat.eqb n 95.
Definition wordy0 (s : string) : bool := sforall word_char s.
Definition same (l : list node) : list node := l.
Definition draw0 (code : string) : drawing := flow_drawing wordy0 same code.
Definition texts (d : drawing) : list (option string) := map sh_text (d_shapes d).
Definition spots (d : drawing) : list (option string * N * N) := map (fun s => (sh_text s, sh_x s, sh_y s)) (d_shapes d).
Definition ties (d : drawing) : list (option N * option N) := map (fun c => (start_shape c, end_shape c)) (d_connectors d).
Definition doc (l : list string) : string := String.concat nl l.

Definition doc0 : list item :=
  [Remark " a chart"; Blank;
   Group "Front end" [Join (Mention "A" (Some (Box, "Start here"))) Pointed (Some "ok & go") (Mention "B" (Some (Round, "Go on"))); Only (Mention "C" None)];
   Group "Back" [Join (Mention "D" (Some (Stadium, "Store"))) Dotted None (Mention "E_1" (Some (Rhombus, "Full?")))];
   Say (Join (Mention "B" None) Thick (Some "next") (Mention "D" (Some (Box, "ignored"))));
   Say (Join (Mention "F" (Some (Circle, "Done"))) Open None (Mention "A" None));
   Say (Only (Mention "G" (Some (Hexagon, "Aside"))))].
Definition code0 : string := doc
  ["flowchart LR"; "  %% a chart"; ""; "    subgraph Front end"; "        A[Start here] -->|ok & go| B(Go on)"; "        C"; "    end";
   "subgraph Back"; "D([Store]) -.-> E_1{Full?}"; "end"; " B ==>|next| D[ignored]"; "F((Done)) --- A"; "G{{Aside}}"].
Lemma doc0_ok : doc_ok wordy0 doc0 = true /\ written LR doc0 code0 /\ mentions doc0 <> [] /\ apart doc0 /\ small doc0.
Proof.
  split; [vm_compute; reflexivity|]. split; [exists (tl (lines code0)); split; vm_compute; reflexivity|]. split; [discriminate|].
  split; [|vm_compute; repeat constructor]. unfold apart. vm_compute. repeat constructor; cbn; intros H; repeat destruct H as [H|H]; try discriminate; exact H.
Qed.
Lemma draw0_shapes : length (d_shapes (draw0 code0)) = 13 /\ length (d_connectors (draw0 code0)) = 4.
Proof. vm_compute. split; reflexivity. Qed.

(** Of a chain only the first arrow counts: the third node is lost, and with bare
    names the second node and the line too. *)
Lemma chain_cut : texts (draw0 (doc ["flowchart LR"; "A[Start] --> B[Process] --> C[End]"])) = [Some "Start"; Some "Process"].
Proof. vm_compute. reflexivity. Qed.
Lemma chain_lost : texts (draw0 (doc ["flowchart LR"; "A --> B --> C"])) = [Some "A"] /\ ties (draw0 (doc ["flowchart LR"; "A --> B --> C"])) = [].
Proof. vm_compute. split; reflexivity. Qed.
(** A caption given after the first mention is ignored. *)
Lemma late_caption : texts (draw0 (doc ["flowchart LR"; "A --> B"; "B[Done]"])) = [Some "A"; Some "B"].
Proof. vm_compute. reflexivity. Qed.
(** A node mentioned in two groups is drawn twice. *)
Lemma drawn_twice : texts (draw0 (doc ["flowchart LR"; "subgraph P"; "A"; "end"; "subgraph Q"; "A"; "end"])) = [None; Some "P"; Some "A"; None; Some "Q"; Some "A"].
Proof. vm_compute. reflexivity. Qed.
(** The direction is only across or down. *)
Lemma backwards rest :
  draw0 ("flowchart RL" ++ nl ++ rest) = draw0 ("flowchart LR" ++ nl ++ rest) /\ draw0 ("flowchart BT" ++ nl ++ rest) = draw0 ("flowchart TB" ++ nl ++ rest).
Proof.
  assert (L : forall h, h = "flowchart RL" \/ h = "flowchart LR" \/ h = "flowchart BT" \/ h = "flowchart TB" -> exists r, lines (h ++ nl ++ rest) = h :: r /\ r = lines rest).
  { intros h H. exists (lines rest). split; [|reflexivity]. unfold lines. assert (E : split_char LF (h ++ nl ++ rest) = h :: split_char LF rest) by (destruct H as [->|[->|[->| ->]]]; reflexivity). rewrite E.
    assert (N : split_char LF rest <> []). { clear. destruct rest as [|c r]; cbn; [discriminate|]. destruct (Ascii.eqb c LF); [discriminate|]. destruct (split_char LF r); discriminate. }
    destruct (split_char LF rest); [congruence|]. destruct H as [->|[->|[->| ->]]]; reflexivity. }
  split; unfold draw0, flow_drawing, flow_parse.
  - destruct (L "flowchart RL") as (r & -> & ->); auto. destruct (L "flowchart LR") as (r & -> & ->); auto.
  - destruct (L "flowchart BT") as (r & -> & ->); auto. destruct (L "flowchart TB") as (r & -> & ->); auto.
Qed.
(** The places depend on the order in which a hash map is walked. *)
Lemma order_shows : spots (flow_drawing wordy0 (fun l => l) (doc ["flowchart LR"; "A --> B"])) <> spots (flow_drawing wordy0 (@rev node) (doc ["flowchart LR"; "A --> B"])).
Proof. vm_compute. discriminate. Qed.
(** Of a group in a group, the outer one is lost. *)
Lemma outer_lost : texts (draw0 (doc ["flowchart LR"; "subgraph P"; "A"; "subgraph Q"; "B"; "end"; "end"])) = [None; Some "Q"; Some "B"; Some "A"].
Proof. vm_compute. reflexivity. Qed.
(** An arrow in a caption is taken for a line. *)
Lemma arrow_in_caption : texts (draw0 (doc ["flowchart LR"; "A[x --> y]"])) = [] .
Proof. vm_compute. reflexivity. Qed.
(** A line of any kind ends in an arrow head, the open one too. *)
Lemma open_has_head : map end_arrow (d_connectors (draw0 (doc ["flowchart LR"; "A --- B"]))) = [Triangle].
Proof. vm_compute. reflexivity. Qed.
