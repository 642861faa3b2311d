(** Which decks the theorems about whole decks range over, and what the deck
    of a caller holds, said from the caller's description only. *)
From Coq Require Import String Ascii List Bool Arith NArith.
From Verif Require Import Str Num XmlSpec XmlProofs ChartModel ShapeModel SlideModel SlideInput FontsModel FontsSpec DeckModel.
Import ListNotations.
Open Scope nat_scope.
Open Scope string_scope.
Local Open Scope list_scope.

(** Where a hyperlink leads: a target outside the package (a web address, an
    address for mail, a file, its back slashes turned), or the part of a slide
    beside the one that holds the link, or a place in the show. *)
Fixpoint turned (s : string) : string :=
  match s with "" => "" | String c r => String (if Ascii.eqb c "\" then "/" else c)%char (turned r) end.
Definition destination (a : action) : string * string :=
  match a with
  | Url u => (u, "External")
  | Email who None => ("mailto:" ++ who, "External")
  | Email who (Some about) => ("mailto:" ++ who ++ "?subject=" ++ about, "External")
  | ToFile path => ("file:///" ++ turned path, "External")
  | ToSlide n => ("slide" ++ dec n ++ ".xml", "")
  | FirstSlide => ("ppaction://hlinkshowjump?jump=firstslide", "")
  | LastSlide => ("ppaction://hlinkshowjump?jump=lastslide", "")
  | NextSlide => ("ppaction://hlinkshowjump?jump=nextslide", "")
  | PreviousSlide => ("ppaction://hlinkshowjump?jump=previousslide", "")
  | EndShow => ("ppaction://hlinkshowjump?jump=endshow", "")
  end%string.
(** The hyperlinks of a slide's shapes with the relationship ids the caller
    gave them. *)
Definition shape_link (t : shape) : list (hyperlink * string) := match sh_link t with Some h => match h_rid h with Some r => [(h, r)] | None => [] end | None => [] end.
Definition slide_links (s : slide) : list (hyperlink * string) := flat_map shape_link (s_shapes s).
(** Relationship ids without markup, targets XML can carry in an attribute, and
    image formats without markup. *)
Definition link_pair_ok (p : hyperlink * string) : bool := sforall plain_val (snd p) && attr_ok (fst (destination (h_action (fst p)))).
Definition links_ok (s : slide) : bool := forallb link_pair_ok (slide_links s).
Definition exts_ok (s : slide) : bool := forallb (fun i => sforall plain_val (im_ext i)) (s_images s).
Definition deck_slide_ok (s : slide) : bool := slide_ok s && exts_ok s && links_ok s.
(** Every image of the slide could be loaded. *)
Definition stored (s : slide) : bool := forallb (fun i => match im_bytes i with Some _ => true | None => false end) (s_images s).
(** All charts of a deck, and all loaded images as (bytes, extension), in order. *)
Definition all_charts (l : list slide) : list chart := flat_map s_charts l.
Definition media_of (i : image) : list (string * string) := match im_bytes i with Some b => [(b, im_ext i)] | None => [] end.
Definition all_media (l : list slide) : list (string * string) := flat_map (fun s => flat_map media_of (s_images s)) l.
Definition media_eqb (x y : string * string) : bool := String.eqb (fst x) (fst y) && String.eqb (snd x) (snd y).
(** The number of charts and of speaker notes on the slides before the [i]-th
    (counting from 0). *)
Definition charts_before (slides : list slide) (i : nat) : nat := length (all_charts (firstn i slides)).
Definition noted (s : slide) : bool := match s_notes s with Some _ => true | None => false end.
Definition notes_before (slides : list slide) (i : nat) : nat := length (filter noted (firstn i slides)).
(** No id given by the caller to a hyperlink is one the library gives: rId1, ...,
    rIdn where n counts layout, notes, images, charts and ink; and they differ. *)
Definition own_rels (s : slide) : nat := 1 + (if noted s then 1 else 0) + length (s_images s) + length (s_charts s) + (if s_ink s then 1 else 0).
Definition link_ids_free (s : slide) : Prop :=
  NoDup (map snd (slide_links s)) /\ forall r k, In r (map snd (slide_links s)) -> 1 <= k <= own_rels s -> r <> ("rId" ++ decn k)%string.
(** Image formats usable as a file name extension. *)
Definition ext_names (s : slide) : bool := forallb (fun i => sforall (fun c => negb (Ascii.eqb c "/")) (im_ext i)) (s_images s).
(** A hyperlink of the deck leads outside, or to one of its [n] slides. *)
Definition link_lands (n : nat) (p : hyperlink * string) : bool :=
  match h_action (fst p) with Url _ | Email _ _ | ToFile _ => true | ToSlide k => (1 <=? k)%N && (k <=? N.of_nat n)%N | _ => false end.
Definition deck_ok (slides : list slide) (st : settings) : bool :=
  forallb (fun s => exts_ok s && links_ok s && ext_names s && forallb (link_lands (length slides)) (slide_links s)) slides
  && forallb (fun f => font_ok f && sforall (fun c => negb (Ascii.eqb c "/")) (f_typeface f)) (st_fonts st).
