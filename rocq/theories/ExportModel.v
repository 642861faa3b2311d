(** Model of src/export/md.rs and src/export/html.rs. *)
From Coq Require Import String Ascii List Bool Arith NArith.
From Verif Require Import Str EscapeModel Base64Model TableModel ShapeModel SlideModel DeckModel.
Import ListNotations.
Open Scope nat_scope.
Open Scope string_scope.

(** [str::replace] with a non-empty pattern: left to right, without overlap;
    [k] counts the characters of a match still to be skipped. *)
Fixpoint replace_from (k : nat) (p r s : string) : string :=
  match s with
  | "" => ""
  | String c s' =>
      match k with
      | S k => replace_from k p r s'
      | O => if starts_with p s then r ++ replace_from (pred (String.length p)) p r s' else String c (replace_from 0 p r s')
      end
  end.
Definition replace_str (p r s : string) : string := replace_from 0 p r s.

(** ** Markdown *)
(** md.rs:9-25 [MarkdownOptions], 27-38 [default] *)
Record md_options := MdOptions { mo_numbers : bool; mo_separator : string; mo_notes : bool; mo_tables : bool; mo_images : bool; mo_front : bool }.
Definition md_default : md_options := MdOptions true "---" true true true true.
(** md.rs:177-208 [export_table_to_gfm] *)
Definition md_row (r : row) : string := "| " ++ sconcat (map (fun c => escape_markdown (ctext c) ++ " | ") (cells r)) ++ nl.
Definition export_table_to_gfm (t : table) : string :=
  match rows t with
  | [] => ""
  | first :: rest => md_row first ++ "|" ++ sconcat (map (fun _ => " --- |") (cells first)) ++ nl ++ sconcat (map md_row rest)
  end.
(** md.rs:139-151: the reference to an image *)
Definition md_image (slide_num idx : nat) (i : image) : string :=
  "![Image " ++ decn (idx + 1) ++ " on slide " ++ decn slide_num ++ "](images/slide" ++ decn slide_num ++ "_image" ++ decn (idx + 1)
  ++ replace_str "png" ".png" (replace_str "jpeg" ".jpg" (lowercase (im_format i))) ++ ")" ++ nl ++ nl.
(** md.rs:153-162 *)
Definition md_code (c : code_block) : string := "```" ++ cb_lang c ++ nl ++ cb_code c ++ nl ++ "```" ++ nl ++ nl.
(** md.rs:164-171 *)
Definition md_notes (n : option string) : string :=
  match n with
  | Some t => if String.eqb t "" then "" else "**Notes:**" ++ nl ++ nl ++ "> " ++ escape_markdown t ++ nl ++ nl
  | None => ""
  end.
(** md.rs:106-171: one slide ([has_table] is taken to be set exactly when there
    is a table, as every constructor does) *)
Definition md_slide (o : md_options) (i : nat) (s : slide) : string :=
  (if Nat.ltb 0 i || mo_numbers o then nl ++ mo_separator o ++ nl ++ nl else "")
  ++ (if mo_numbers o then "## Slide " ++ decn (i + 1) ++ ": " ++ escape_markdown (s_title s) ++ nl ++ nl
      else "## " ++ escape_markdown (s_title s) ++ nl ++ nl)
  ++ match s_content s with [] => "" | l => sconcat (map (fun item => "- " ++ escape_markdown item ++ nl) l) ++ nl end
  ++ (if mo_tables o then match s_table s with Some t => export_table_to_gfm t ++ nl | None => "" end else "")
  ++ (if mo_images o then each_push (md_image (i + 1)) 0 (s_images s) else "")
  ++ sconcat (map md_code (s_code s))
  ++ (if mo_notes o then md_notes (s_notes s) else "").
(** md.rs:88-174 [export_to_markdown_with_options] *)
Definition md_front (title : string) (n : nat) : string :=
  "---" ++ nl ++ "title: " ++ dq ++ escape_yaml title ++ dq ++ nl ++ "slides: " ++ decn n ++ nl ++ "generator: ppt-rs" ++ nl ++ "---" ++ nl ++ nl.
Definition md_body (o : md_options) (title : string) (slides : list slide) : string := "# " ++ title ++ nl ++ nl ++ each_push (md_slide o) 0 slides.
Definition export_to_markdown (o : md_options) (p : presentation) : string :=
  (if mo_front o then md_front (p_title p) (length (p_slides p)) else "") ++ md_body o (p_title p) (p_slides p).

(** ** HTML *)
(** html.rs:7-30 [HtmlExportOptions] and its [default] *)
Record html_options := HtmlOptions { ho_notes : bool; ho_nav : bool; ho_highlight : bool; ho_files : bool; ho_dir : option string }.
Definition html_default : html_options := HtmlOptions true true true false None.
(** The embedded files html_style.css, html_navigation.css, html_notes.css and
    html_navigation.js. *)
Definition html_style_css : string := "body {
    font-family: -apple-system, BlinkMacSystemFont, ""Segoe UI"", Roboto, Helvetica, Arial, sans-serif;
    margin: 0;
    padding: 0;
    background-color: #f0f0f0;
}

.slide {
    background-color: white;
    width: 80%; /* Or fixed aspect ratio like 16/9 */
    max-width: 1000px;
    aspect-ratio: 16/9;
    margin: 20px auto;
    padding: 40px;
    box-shadow: 0 4px 10px rgba(0,0,0,0.1);
    position: relative;
    overflow: hidden;
    display: flex;
    flex-direction: column;
}

.title-slide {
    justify-content: center;
    align-items: center;
    text-align: center;
}

h1 {
    font-size: 3em;
    color: #333;
}

h2 {
    font-size: 2em;
    color: #444;
    margin-top: 0;
    border-bottom: 2px solid #eee;
    padding-bottom: 10px;
}

.content {
    flex-grow: 1;
    font-size: 1.5em;
    color: #555;
}

ul {
    list-style-type: disc;
    padding-left: 40px;
}

li {
    margin-bottom: 15px;
}

.slide-number {
    position: absolute;
    bottom: 20px;
    right: 20px;
    font-size: 0.8em;
    color: #999;
}

pre {
    background-color: #f5f5f5;
    padding: 15px;
    border-radius: 5px;
    overflow-x: auto;
    font-size: 0.8em;
}

.image-container {
    text-align: center;
    margin: 20px 0;
}

.image-container img {
    max-width: 100%;
    max-height: 400px;
    object-fit: contain;
}
".
Definition html_navigation_css : string := "/* Navigation Controls Styles */
.navigation-controls {
    position: fixed;
    bottom: 20px;
    left: 50%;
    transform: translateX(-50%);
    background: rgba(0, 0, 0, 0.8);
    padding: 10px 20px;
    border-radius: 30px;
    display: flex;
    align-items: center;
    gap: 15px;
    z-index: 1000;
    box-shadow: 0 4px 10px rgba(0, 0, 0, 0.3);
}

.navigation-controls button {
    background: #fff;
    color: #333;
    border: none;
    padding: 8px 16px;
    border-radius: 20px;
    cursor: pointer;
    font-weight: bold;
    transition: background 0.2s, transform 0.1s;
}

.navigation-controls button:hover {
    background: #f0f0f0;
    transform: scale(1.05);
}

.navigation-controls button:active {
    transform: scale(0.95);
}

#slideCounter {
    color: white;
    font-weight: bold;
    min-width: 60px;
    text-align: center;
}

/* Slide visibility for navigation */
.slide {
    display: none;
}

.slide.active {
    display: flex;
}

/* Keyboard hint */
.keyboard-hint {
    position: fixed;
    bottom: 70px;
    right: 20px;
    background: rgba(0, 0, 0, 0.6);
    color: white;
    padding: 8px 12px;
    border-radius: 5px;
    font-size: 12px;
    opacity: 0.7;
    pointer-events: none;
}".
Definition html_notes_css : string := "/* Speaker Notes Styles */
.speaker-notes {
    margin-top: 30px;
    padding: 15px;
    background-color: #fff8dc;
    border-left: 4px solid #daa520;
    border-radius: 4px;
    font-size: 0.9em;
    color: #666;
    max-width: 90%;
    margin-left: auto;
    margin-right: auto;
}

.speaker-notes strong {
    color: #8b4513;
    font-weight: bold;
}

/* Notes toggle button */
.notes-toggle {
    position: absolute;
    top: 10px;
    right: 10px;
    background: #f0f0f0;
    border: 1px solid #ccc;
    padding: 5px 10px;
    border-radius: 3px;
    cursor: pointer;
    font-size: 12px;
}

.notes-toggle:hover {
    background: #e0e0e0;
}

/* Hide speaker notes by default in presentation mode */
body.presentation-mode .speaker-notes {
    display: none;
}

body.notes-mode .speaker-notes {
    display: block;
}
".
Definition html_navigation_js : string := "// HTML Navigation JavaScript for PowerPoint Exports

let currentSlide = 0;
let slides = [];

// Initialize on page load
document.addEventListener('DOMContentLoaded', function() {
    slides = document.querySelectorAll('.slide');
    currentSlide = 0;
    showSlide(currentSlide);
    updateCounter();

    // Add keyboard navigation
    document.addEventListener('keydown', handleKeyPress);

    // Add touch/swipe support for mobile
    let touchStartX = 0;
    let touchEndX = 0;

    document.addEventListener('touchstart', function(e) {
        touchStartX = e.changedTouches[0].screenX;
    });

    document.addEventListener('touchend', function(e) {
        touchEndX = e.changedTouches[0].screenX;
        handleSwipe();
    });

    function handleSwipe() {
        const swipeThreshold = 50;
        const diff = touchStartX - touchEndX;

        if (diff > swipeThreshold) {
            nextSlide();
        } else if (diff < -swipeThreshold) {
            previousSlide();
        }
    }
});

function showSlide(index) {
    // Hide all slides
    slides.forEach((slide, i) => {
        slide.classList.remove('active');
        if (i === index) {
            slide.classList.add('active');
        }
    });

    // Update slide counter
    updateCounter();

    // Update button states
    const prevBtn = document.getElementById('prevBtn');
    const nextBtn = document.getElementById('nextBtn');

    if (prevBtn) prevBtn.disabled = (index === 0);
    if (nextBtn) nextBtn.disabled = (index === slides.length - 1);
}

function nextSlide() {
    if (currentSlide < slides.length - 1) {
        currentSlide++;
        showSlide(currentSlide);
    }
}

function previousSlide() {
    if (currentSlide > 0) {
        currentSlide--;
        showSlide(currentSlide);
    }
}

function goToSlide(index) {
    if (index >= 0 && index < slides.length) {
        currentSlide = index;
        showSlide(currentSlide);
    }
}

function updateCounter() {
    const counter = document.getElementById('slideCounter');
    if (counter) {
        counter.textContent = `${currentSlide + 1} / ${slides.length}`;
    }
}

function handleKeyPress(event) {
    switch(event.key) {
        case 'ArrowRight':
        case ' ':
        case 'Enter':
            event.preventDefault();
            nextSlide();
            break;
        case 'ArrowLeft':
            event.preventDefault();
            previousSlide();
            break;
        case 'Home':
            event.preventDefault();
            goToSlide(0);
            break;
        case 'End':
            event.preventDefault();
            goToSlide(slides.length - 1);
            break;
        case 'n':
            // Toggle notes mode
            document.body.classList.toggle('notes-mode');
            document.body.classList.toggle('presentation-mode');
            break;
        case 'f':
            // Toggle fullscreen
            if (document.fullscreenElement) {
                document.exitFullscreen();
            } else {
                document.documentElement.requestFullscreen();
            }
            break;
    }
}

// Auto-play functionality (optional)
function startAutoPlay(interval = 5000) {
    return setInterval(() => {
        if (currentSlide < slides.length - 1) {
            nextSlide();
        } else {
            goToSlide(0); // Loop back to start
        }
    }, interval);
}

function stopAutoPlay(timerId) {
    clearInterval(timerId);
}".
(** html.rs:204-235 [render_image_with_options] *)
Definition html_mime (format : string) : string :=
  let f := lowercase format in
  if String.eqb f "jpg" || String.eqb f "jpeg" then "image/jpeg" else if String.eqb f "png" then "image/png"
  else if String.eqb f "gif" then "image/gif" else if String.eqb f "svg" then "image/svg+xml" else "application/octet-stream".
Definition html_image (o : html_options) (i : image) : string :=
  match im_bytes i with
  | None => ""
  | Some b =>
      if ho_files o then
        let filename := "slide_img_" ++ im_name i ++ "." ++ im_format i in
        ("<div class=""image-container""><img src=""" ++ match ho_dir o with Some d => d ++ "/" ++ filename | None => filename end ++ """ alt=""" ++ im_name i ++ """ /></div>
")
      else ("<div class=""image-container""><img src=""data:" ++ html_mime (im_format i) ++ ";base64," ++ base64_encode b ++ """ alt=""" ++ im_name i ++ """ /></div>
")
  end.
(** html.rs:181-193 [render_table_html]: a placeholder *)
Definition html_table : string := "<table class=""ppt-table"">
<tbody>
<tr><td>Table content</td></tr>
</tbody>
</table>
".
(** html.rs:122-178 [render_slide_with_options] *)
Definition html_code (o : html_options) (c : code_block) : string :=
  (if ho_highlight o then ("<pre><code class=""language-" ++ cb_lang c ++ """>") else "<pre><code>") ++ escape_html (cb_code c) ++ "</code></pre>
".
Definition html_slide (o : html_options) (index : nat) (s : slide) : string :=
  ("<div class=""slide"" id=""slide-" ++ decn index ++ """ data-slide=""" ++ decn index ++ """>
")
  ++ ("<div class=""slide-number"">" ++ decn index ++ "</div>
")
  ++ ("<h2>" ++ s_title s ++ "</h2>
")
  ++ "<div class=""content"">
"
  ++ match s_content s with [] => "" | l => "<ul>
" ++ sconcat (map (fun item => ("<li>" ++ item ++ "</li>
")) l) ++ "</ul>
" end
  ++ match s_table s with Some _ => html_table | None => "" end
  ++ sconcat (map (html_image o) (s_images s))
  ++ sconcat (map (html_code o) (s_code s))
  ++ (if ho_notes o then match s_notes s with Some n => ("<div class=""speaker-notes""><strong>Notes:</strong> " ++ escape_html n ++ "</div>
") | None => "" end else "")
  ++ "</div>
" ++ "</div>
".
(** html.rs:65-120 [export_to_html_with_options] *)
Definition html_head (o : html_options) (title : string) : string :=
  "<!DOCTYPE html>
<html>
<head>
" ++ "<meta charset=""UTF-8"">
"
  ++ "<meta name=""viewport"" content=""width=device-width, initial-scale=1.0"">
" ++ ("<title>" ++ title ++ "</title>
")
  ++ "<style>
" ++ html_style_css ++ (if ho_nav o then html_navigation_css else "") ++ (if ho_notes o then html_notes_css else "") ++ "</style>
"
  ++ (if ho_nav o then "<script>
" ++ html_navigation_js ++ "</script>
" else "") ++ "</head>
<body>
".
Definition html_nav : string :=
  "<div class=""navigation-controls"">
" ++ "<button onclick=""previousSlide()"" id=""prevBtn"">Previous</button>
"
  ++ "<button onclick=""nextSlide()"" id=""nextBtn"">Next</button>
" ++ "<span id=""slideCounter""></span>
" ++ "</div>
".
Definition export_to_html (o : html_options) (p : presentation) : string :=
  html_head o (p_title p)
  ++ "<div class=""slide title-slide"" data-slide=""0"">
" ++ ("<h1>" ++ p_title p ++ "</h1>
") ++ "</div>
"
  ++ each_push (fun i s => html_slide o (i + 1) s) 0 (p_slides p)
  ++ (if ho_nav o then html_nav else "") ++ "</body>
</html>".
