(** The page a presentation should give, from its description. *)
From Coq Require Import String Ascii List Bool Arith NArith.
From Verif Require Import Str Base64Model TableModel ShapeModel SlideModel DeckModel ExportModel HtmlSpec MdWant.
Import ListNotations.
Open Scope nat_scope.
Open Scope string_scope.
Local Open Scope list_scope.

(** An element without attributes, and an attribute. *)
Definition el (n : string) (l : list token) : list token := Tag n :: l ++ [Tag ("/" ++ n)].
Definition el_with (n a : string) (l : list token) : list token := Tag (n ++ a) :: l ++ [Tag ("/" ++ n)].
Definition att (k v : string) : string := " " ++ k ++ "=" ++ dq ++ v ++ dq.

Definition want_img (o : html_options) (i : image) : list token :=
  match im_bytes i with
  | None => []
  | Some b =>
      let f := ("slide_img_" ++ im_name i ++ "." ++ im_format i)%string in
      let src := if ho_files o then match ho_dir o with Some d => (d ++ "/" ++ f)%string | None => f end else ("data:" ++ html_mime (im_format i) ++ ";base64," ++ base64_encode b)%string in
      el_with "div" (att "class" "image-container") [Tag ("img" ++ att "src" src ++ att "alt" (im_name i) ++ " /")]
  end.
Definition want_code (o : html_options) (c : code_block) : list token :=
  el "pre" (el_with "code" (if ho_highlight o then att "class" ("language-" ++ cb_lang c) else "") (text (cb_code c))).
Definition want_page (o : html_options) (p : nat * slide) : list token :=
  let (n, s) := p in
  el_with "div" (att "class" "slide" ++ att "id" ("slide-" ++ decn n) ++ att "data-slide" (decn n))
    (el_with "div" (att "class" "slide-number") [Text (decn n)]
     ++ el "h2" (text (s_title s))
     ++ el_with "div" (att "class" "content")
          ((if match s_content s with [] => true | _ => false end then [] else el "ul" (flat_map (fun t => el "li" (text t)) (s_content s)))
           ++ match s_table s with Some _ => el_with "table" (att "class" "ppt-table") (el "tbody" (el "tr" (el "td" [Text "Table content"]))) | None => [] end
           ++ flat_map (want_img o) (s_images s)
           ++ flat_map (want_code o) (s_code s)
           ++ match s_notes s with
              | Some n => if ho_notes o then el_with "div" (att "class" "speaker-notes") (el "strong" [Text "Notes:"] ++ text (" " ++ n)) else []
              | None => []
              end)).
Definition want_nav : list token :=
  el_with "div" (att "class" "navigation-controls")
    (el_with "button" (att "onclick" "previousSlide()" ++ att "id" "prevBtn") [Text "Previous"]
     ++ el_with "button" (att "onclick" "nextSlide()" ++ att "id" "nextBtn") [Text "Next"] ++ el_with "span" (att "id" "slideCounter") []).
Definition want_html (o : html_options) (title : string) (slides : list slide) : list token :=
  Tag "!DOCTYPE html" ::
  el "html"
    (el "head"
       ([Tag ("meta" ++ att "charset" "UTF-8"); Tag ("meta" ++ att "name" "viewport" ++ att "content" "width=device-width, initial-scale=1.0")] ++ el "title" (text title)
        ++ el "style" [Text (nl ++ html_style_css ++ (if ho_nav o then html_navigation_css else "") ++ (if ho_notes o then html_notes_css else ""))]
        ++ (if ho_nav o then el "script" [Text (nl ++ html_navigation_js)] else []))
     ++ el "body"
          (el_with "div" (att "class" "slide title-slide" ++ att "data-slide" "0") (el "h1" (text title))
           ++ flat_map (want_page o) (numbered_from1 slides) ++ (if ho_nav o then want_nav else []))).

(** The texts the export does not escape. *)
Definition html_slide_ok (o : html_options) (s : slide) : bool :=
  html_plain (s_title s) && forallb html_plain (s_content s) && forallb (fun i => html_plain (im_name i) && html_plain (im_format i)) (s_images s)
  && forallb (fun c => html_plain (cb_lang c)) (s_code s).
Definition html_dir_ok (o : html_options) : bool := match ho_dir o with Some d => html_plain d | None => true end.
