(** Lemmas: templates of [Content_Types].xml and how they read. *)
From Coq Require Import String Ascii List Bool Arith NArith Lia.
From Verif Require Import Str StrRefl XmlSpec XmlProofs XmlTpl OpcSpec GenModel GenProofs.
Import ListNotations.
Open Scope string_scope.

Definition xmlns_types : list (string * list piece) :=
  [("xmlns", [Lit "http://schemas.openxmlformats.org/package/2006/content-types"])].
Definition defT (ext ctype : list piece) : tpl := TS "Default" [("Extension", ext); ("ContentType", ctype)].
Definition overT (part ctype : list piece) : tpl := TS "Override" [("PartName", part); ("ContentType", ctype)].
Definition nlT : tpl := TT [Lit nl].

Definition default_of (x : node) : string * string := (attr "Extension" x, attr "ContentType" x).
Definition override_of (x : node) : string * string := (attr "PartName" x, attr "ContentType" x).
(** Entries of a template body. *)
Definition defaults_in (l : list tpl) : list (string * string) := map default_of (named "Default" (tsnodes l)).
Definition overrides_in (l : list tpl) : list (string * string) := map override_of (named "Override" (tsnodes l)).

Lemma types_of_tpl body : toks body ->
  types_of (decl ++ nl ++ tstr (TE "Types" xmlns_types body)) = Some (defaults_in body, overrides_in body).
Proof.
  intros H. unfold types_of. rewrite tpl_read; [|reflexivity|reflexivity|].
  - unfold defaults_in, overrides_in. now rewrite !named_merge.
  - apply tok_TE; [reflexivity|reflexivity|exact H].
Qed.

Lemma defaults_app a b : defaults_in (a ++ b) = (defaults_in a ++ defaults_in b)%list.
Proof. unfold defaults_in. now rewrite tsnodes_app, named_app, map_app. Qed.
Lemma overrides_app a b : overrides_in (a ++ b) = (overrides_in a ++ overrides_in b)%list.
Proof. unfold overrides_in. now rewrite tsnodes_app, named_app, map_app. Qed.
Lemma defaults_flat_map {A} (f : A -> list tpl) l : defaults_in (flat_map f l) = flat_map (fun x => defaults_in (f x)) l.
Proof. induction l as [|x l IH]; [reflexivity|]. cbn [flat_map]. now rewrite defaults_app, IH. Qed.
Lemma overrides_flat_map {A} (f : A -> list tpl) l : overrides_in (flat_map f l) = flat_map (fun x => overrides_in (f x)) l.
Proof. induction l as [|x l IH]; [reflexivity|]. cbn [flat_map]. now rewrite overrides_app, IH. Qed.
Lemma flat_map_single {A B} (f : A -> B) l : flat_map (fun x => [f x]) l = map f l.
Proof. induction l as [|x l IH]; [reflexivity|]. cbn. now rewrite IH. Qed.
Lemma flat_map_nil {A B} (l : list A) : flat_map (fun _ => @nil B) l = [].
Proof. induction l; [reflexivity|exact IHl]. Qed.

(** A family of numbered parts. *)
Definition numT (pre post ctype : string) (i : nat) : list tpl := [nlT; overT [Lit pre; Lit (decn i); Lit post] [Lit ctype]].
Lemma numT_overrides pre post ctype i : overrides_in (numT pre post ctype i) = [(pre ++ decn i ++ post, ctype)].
Proof. unfold overrides_in, numT. cbn. now rewrite !sapp_nil_r. Qed.
Lemma numT_defaults pre post ctype i : defaults_in (numT pre post ctype i) = [].
Proof. reflexivity. Qed.
Lemma nums_overrides pre post ctype l :
  overrides_in (flat_map (numT pre post ctype) l) = map (fun i => (pre ++ decn i ++ post, ctype)) l.
Proof. rewrite overrides_flat_map, <- flat_map_single. apply flat_map_ext. intros i. apply numT_overrides. Qed.
Lemma nums_defaults pre post ctype l : defaults_in (flat_map (numT pre post ctype) l) = [].
Proof. rewrite defaults_flat_map. apply flat_map_nil. Qed.
Lemma toks_nums pre post ctype l : sforall plain_val pre = true -> sforall plain_val post = true -> sforall plain_val ctype = true ->
  toks (flat_map (numT pre post ctype) l).
Proof. intros H1 H2 H3. apply toks_flat_map. intros i _. unfold numT, nlT, overT. toks_solve. Qed.

Definition slide_type : string := "application/vnd.openxmlformats-officedocument.presentationml.slide+xml".
Lemma slide_overrides_tpl n : slide_overrides n = tstrs (flat_map (numT "/ppt/slides/slide" ".xml" slide_type) (seq 1 n)).
Proof.
  unfold slide_overrides. rewrite tstrs_flat_map. apply sconcat_ext. intros i _.
  unfold slide_override, numT, nlT, overT, slide_type. tstr_eq.
Qed.
