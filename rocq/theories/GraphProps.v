(** C65: state, class and entity diagrams show what they say. *)
From Coq Require Import String Ascii List Bool Arith NArith Permutation.
From Verif Require Import Str Num ShapeModel ConnectorModel FlowModel FlowSpec FlowRefute DiagramModel DiagramSpec DiagramCommon DiagramTime DiagramRefute GraphSpec GraphCommon GraphThms GraphEr GraphRefute.
Import ListNotations.
Open Scope nat_scope.
Open Scope string_scope.

Theorem C65_state : forall (o : outside) (doc : list state_item) (code : string),
  forallb state_ok doc = true -> few (state_names doc) -> few (moves doc) -> writes "stateDiagram-v2" (map state_text doc) code ->
  exists boxes labels, state_drawn doc (d_shapes (draw o code)) (d_connectors (draw o code)) boxes labels.
Proof. exact state_all. Qed.
Print Assumptions C65_state.
Example C65_state_example : forallb state_ok state0 = true /\ few (state_names state0) /\ few (moves state0) /\ writes "stateDiagram-v2" (map state_text state0) state_code.
Proof. exact state_fine. Qed.
Example C65_state_texts : state_names state0 = ["Start"; "Still"; "Moving fast"; "Crash"; "End"] /\ length (moves state0) = 6 /\ texts (draw out0 state_code) = [Some "Start"; Some "Still"; Some "Moving fast"; Some "Crash"; Some "End"; Some "go: now"; Some "tree"].
Proof. exact state_shown. Qed.
(** A state called "Start" is the start. *)
Theorem C65_state_start_refuted : drawn_texts ["stateDiagram"; "[*] --> Start"; "Start --> Run"] = [Some "Start"; Some "Run"]
  /\ drawn_lines ["stateDiagram"; "[*] --> Start"; "Start --> Run"] = [(Some "Start", Some "Start"); (Some "Start", Some "Run")].
Proof. exact start_taken. Qed.
Print Assumptions C65_state_start_refuted.
(** Descriptions and given names are lost. *)
Theorem C65_state_names_refuted : drawn_texts ["stateDiagram"; "s1 : Waiting for input"; "state ""In motion"" as s2"; "s1 --> s2"] = [Some "s1"; Some "s2"].
Proof. exact names_lost. Qed.
Print Assumptions C65_state_names_refuted.
(** Nothing shows that a state is inside of another. *)
Theorem C65_state_inner_refuted : drawn_texts ["stateDiagram"; "[*] --> First"; "state First {"; "[*] --> second"; "}"] = [Some "Start"; Some "First"; Some "second"].
Proof. exact inner_states. Qed.
Print Assumptions C65_state_inner_refuted.
(** The end points of a line to the left are on the other sides than the ties. *)
Theorem C65_state_sides_refuted : exists c a b, In c (d_connectors (draw out0 (FlowRefute.doc ["stateDiagram"; "A --> B"; "B --> A"]))) /\ In a (d_shapes (draw out0 (FlowRefute.doc ["stateDiagram"; "A --> B"; "B --> A"]))) /\ In b (d_shapes (draw out0 (FlowRefute.doc ["stateDiagram"; "A --> B"; "B --> A"])))
  /\ sh_text a = Some "B" /\ sh_text b = Some "A" /\ start_shape c = sh_id a /\ start_site c = Some Left_ /\ start_x c = right_of a /\ end_site c = Some Right_ /\ end_x c = sh_x b.
Proof. exact back_line. Qed.
Print Assumptions C65_state_sides_refuted.
(** A label covers the edge of a box. *)
Theorem C65_state_covered_refuted : exists a l, In a (d_shapes (draw out0 (FlowRefute.doc ["stateDiagram"; "A --> B : x"]))) /\ In l (d_shapes (draw out0 (FlowRefute.doc ["stateDiagram"; "A --> B : x"]))) /\ sh_text a = Some "A" /\ sh_text l = Some "x" /\ (sh_x l < right_of a)%N /\ (sh_y a < sh_y l)%N /\ (bottom_of l < bottom_of a)%N.
Proof. exact label_covers. Qed.
Print Assumptions C65_state_covered_refuted.

Theorem C65_class : forall (o : outside) (doc : list class_item) (code : string),
  forallb class_ok doc = true -> NoDup (class_names doc) -> few (classes doc) -> Forall (fun c => few (snd c)) (classes doc) -> writes "classDiagram" (flat_map class_text doc) code ->
  exists heads attributes methods, class_drawn doc (d_shapes (draw o code)) (d_connectors (draw o code)) heads attributes methods.
Proof. exact class_all. Qed.
Print Assumptions C65_class.
Example C65_class_example : forallb class_ok class0 = true /\ NoDup (class_names class0) /\ few (classes class0) /\ Forall (fun c => few (snd c)) (classes class0) /\ writes "classDiagram" (flat_map class_text class0) class_code.
Proof. exact class_fine. Qed.
Example C65_class_texts : Forall short_class (classes class0) /\ relations class0 = [("Animal", "Duck"); ("Duck", "Zebra"); ("Zebra", "Zebra")]
  /\ texts (draw out0 class_code) = [Some "Animal"; Some "+int age"; Some ("+isMammal() bool" ++ nl ++ "+mate()"); Some "Duck"; Some "+String beakColor"; Some ""; Some "Fish~T~"; Some ""; Some ""; Some "Zebra"; Some ""; Some "+run()"].
Proof. exact class_shown. Qed.
(** All kinds of arrows give the same drawing. *)
Theorem C65_class_arrows_refuted : forall (o : outside) (doc : list class_item) (c1 c2 : string), forallb class_ok doc = true ->
  writes "classDiagram" (flat_map class_text doc) c1 -> writes "classDiagram" (flat_map class_text (all_plain doc)) c2 -> draw o c1 = draw o c2.
Proof. exact arrows_lost. Qed.
Print Assumptions C65_class_arrows_refuted.
(** Inheritance points at the heir. *)
Theorem C65_class_heir_refuted : drawn_lines ["classDiagram"; "class Animal {"; "}"; "class Duck {"; "}"; "Animal <|-- Duck"] = [(Some "Animal", Some "Duck")]
  /\ map end_arrow (d_connectors (draw out0 (FlowRefute.doc ["classDiagram"; "class Animal {"; "}"; "class Duck {"; "}"; "Animal <|-- Duck"]))) = [Triangle].
Proof. exact heir_pointed. Qed.
Print Assumptions C65_class_heir_refuted.
(** A relation with a label is lost. *)
Theorem C65_class_label_refuted : drawn_lines ["classDiagram"; "class A {"; "}"; "class B {"; "}"; "A --> B : uses"] = [].
Proof. exact label_loses. Qed.
Print Assumptions C65_class_label_refuted.
(** A class without a body is lost. *)
Theorem C65_class_bare_refuted : drawn_texts ["classDiagram"; "class A"; "A : +int age"; "A --> B"] = [].
Proof. exact bare_class. Qed.
Print Assumptions C65_class_bare_refuted.
(** A body on one line takes in what follows. *)
Theorem C65_class_one_line_refuted : drawn_texts ["classDiagram"; "class A {}"; "A --> B"; "class B {"; "}"] = [Some "B"; Some ""; Some ""].
Proof. exact one_line_body. Qed.
Print Assumptions C65_class_one_line_refuted.
(** With seven lines the class below is covered. *)
Theorem C65_class_long_refuted : let d := d_shapes (draw out0 (FlowRefute.doc (["classDiagram"; "class A {"; "a"; "b"; "c"; "d"; "e"; "f"; "}"; "class B {"; "}"; "class C {"; "}"; "class D {"; "}"]))) in
  exists s t, In s d /\ In t d /\ sh_text s = Some "" /\ sh_text t = Some "D" /\ ~ clear s t.
Proof. exact long_class. Qed.
Print Assumptions C65_class_long_refuted.

Theorem C65_er : forall (o : outside) (doc : list er_item) (code : string), (forall l, Permutation (o_entities o l) l) ->
  forallb (er_ok (o_alpha o)) doc = true -> few (entities doc) -> Forall (fun e => few (snd e)) (entities doc) -> few (bonds doc) -> writes "erDiagram" (flat_map er_text doc) code ->
  exists es heads bodies labels, er_drawn doc (d_shapes (draw o code)) (d_connectors (draw o code)) es heads bodies labels.
Proof. exact er_all. Qed.
Print Assumptions C65_er.
Example C65_er_example : (forall l, Permutation (o_entities out0 l) l) /\ forallb (er_ok (o_alpha out0)) er0 = true /\ few (entities er0) /\ Forall (fun e => few (snd e)) (entities er0) /\ few (bonds er0) /\ writes "erDiagram" (flat_map er_text er0) er_code.
Proof. exact er_fine. Qed.
Example C65_er_texts : entities er0 = [("CUSTOMER", ["string name PK"; "int age"; "string email"]); ("ORDER", []); ("LINE_ITEM", []); ("Pet", [])]
  /\ texts (draw out0 er_code) = [Some "CUSTOMER"; Some ("string name PK" ++ nl ++ "int age" ++ nl ++ "string email"); Some "ORDER"; Some ""; Some "LINE_ITEM"; Some ""; Some "Pet"; Some ""; Some "places"; Some "repeats: it"].
Proof. exact er_shown. Qed.
(** Names are cut at a small o and at dashes. *)
Theorem C65_er_names_refuted : drawn_texts ["erDiagram"; "Customer ||--|| Order"] = [Some "Cust"; Some ""; Some "Order"; Some ""] /\ drawn_texts ["erDiagram"; "A ||--|| LINE-ITEM"] = [Some "A"; Some ""; Some "ITEM"; Some ""].
Proof. exact names_cut. Qed.
Print Assumptions C65_er_names_refuted.
(** Zero or one on both sides is not read. *)
Theorem C65_er_card_refuted : drawn_texts ["erDiagram"; "A |o--o| B"] = [].
Proof. exact card_lost. Qed.
Print Assumptions C65_er_card_refuted.
(** How many are on each side makes no difference. *)
Theorem C65_er_cards_refuted : forall (o : outside) (doc : list er_item) (c1 c2 : string), forallb (er_ok (o_alpha o)) doc = true ->
  writes "erDiagram" (flat_map er_text doc) c1 -> writes "erDiagram" (flat_map er_text (all_ones doc)) c2 -> draw o c1 = draw o c2.
Proof. exact cards_lost. Qed.
Print Assumptions C65_er_cards_refuted.
(** Places depend on the order of a hash table. *)
Theorem C65_er_places_refuted : (forall l, Permutation (o_entities out_rev l) l) /\ texts (draw out_rev (FlowRefute.doc ["erDiagram"; "A ||--|| B"])) = [Some "B"; Some ""; Some "A"; Some ""].
Proof. exact hash_places. Qed.
Print Assumptions C65_er_places_refuted.
