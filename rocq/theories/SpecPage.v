(** How an HTML document is read, for the statements of C171-C173.  The part of the syntax of the HTML standard (section 13.1)
    that the pages use: a document with anything else has no reading here.  Line breaks are not normalised. *)
From Coq Require Import String Ascii List NArith ZArith Bool.
From Verif Require Import Base SpecReaders Jwk Prog Http OAuth App Page.
Import ListNotations.
Open Scope N_scope.

(** A letter of the text, or a tag (or the document type) as it is written between the angle brackets *)
Inductive token := Letter (c : N) | Markup (raw : str).
Definition letters (s : str) : list token := map Letter s.
(** Section 13.1.4: character references *)
Inductive char_ref : str -> N -> Prop :=
| cr_amp : char_ref (chars "&amp;") 38
| cr_lt : char_ref (chars "&lt;") 60
| cr_gt : char_ref (chars "&gt;") 62
| cr_quot : char_ref (chars "&#34;") 34
| cr_apos : char_ref (chars "&#39;") 39.
(** The text [s] written such that it can stand between double quotes or between tags *)
Inductive text_of : str -> str -> Prop :=
| to_nil : text_of [] []
| to_char c r s : c <> 38 -> c <> 60 -> c <> 34 -> text_of r s -> text_of (c :: r) (c :: s)
| to_ref e c r s : char_ref e c -> text_of r s -> text_of (e ++ r) (c :: s).
(** Sections 13.1.2.1 and 13.1.2.3: what is between the angle brackets; a double quote only around the value of an attribute *)
Inductive tag_body : str -> Prop :=
| tb_nil : tag_body []
| tb_plain c s : c <> 34 -> c <> 39 -> c <> 62 -> c <> 60 -> tag_body s -> tag_body (c :: s)
| tb_value q s : ~ In 34 q -> tag_body s -> tag_body (61 :: 34 :: q ++ 34 :: s).
Definition small (c : N) : Prop := 97 <= c <= 122.
Definition tag_start (raw : str) : Prop :=
  (exists c r, raw = c :: r /\ small c) \/ (exists c r, raw = 47 :: c :: r /\ small c) \/ raw = chars "!DOCTYPE html".
Inductive html : str -> list token -> Prop :=
| ht_nil : html [] []
| ht_char c s t : c <> 60 -> c <> 38 -> html s t -> html (c :: s) (Letter c :: t)
| ht_ref e c s t : char_ref e c -> html s t -> html (e ++ s) (Letter c :: t)
| ht_tag raw s t : tag_start raw -> tag_body raw -> html s t -> html (60 :: raw ++ 62 :: s) (Markup raw :: t).
(** The name of a tag, with the slash if it ends an element: up to the first blank *)
Fixpoint name_of (raw : str) : str := match raw with [] => [] | c :: r => if c =? 32 then [] else c :: name_of r end.
Definition names (t : list token) : list str := flat_map (fun k => match k with Markup raw => [name_of raw] | Letter _ => [] end) t.
(** What a value is shown as; there is no difference between a missing one and the word *)
Definition shown (o : option str) : str := match o with Some s => s | None => chars "None" end.
Definition markup (s : string) : token := Markup (chars s).
(** An opening tag with the attribute [name], as the template has it: [before] and [after] are what is around the value, which is
    written such that it is read as [value]. *)
Definition with_value (before after : string) (value : str) (k : token) : Prop :=
  exists v, k = Markup (chars before ++ v ++ chars after) /\ text_of v value.
(** A message, if there is one that is not empty, and a list of messages: each between [a] and [b] *)
Definition message_in (a b : list token) (m : option str) : list token := match m with Some (c :: s) => a ++ letters (c :: s) ++ b | _ => [] end.
Definition messages_in (a b : list token) (l : list str) : list token := flat_map (fun s => a ++ letters s ++ b) l.
(** The tags of the pages *)
Definition error_tags : list str :=
  map chars ["!DOCTYPE"; "html"; "head"; "meta"; "meta"; "title"; "/title"; "link"; "/head"; "body"; "div"; "strong"; "/strong"; "span"; "/span"; "br";
             "strong"; "/strong"; "span"; "/span"; "/div"; "script"; "/script"; "/body"; "/html"]%string.
Definition link_tag : string * string := ("link rel=""stylesheet"" type=""text/css"" href=""", """")%string.
Definition form_tag : string * string := ("form action=""", """ method=""post"" class=""mb-4""")%string.
Definition csrf_tag : string * string := ("input id=""csrf_token"" name=""csrf_token"" type=""hidden"" value=""", """")%string.
Definition email_tag : string * string :=
  ("input aria-describedby=""email-help"" class=""form-control"" id=""email"" name=""email"" placeholder=""Email*"" required type=""text"" value=""", """")%string.
Definition password_tag : string :=
  "input aria-describedby=""password-help"" class=""form-control"" id=""password"" name=""password"" placeholder=""Password*"" required type=""password"" value=""""".
Definition script_tag : string :=
  "script src=""https://cdn.jsdelivr.net/npm/bootstrap@5.0.0-beta1/dist/js/bootstrap.bundle.min.js"" integrity=""sha384-ygbV9kiqUc6oa4msXn9868pTtWMgiQaeYH7/t7LECLbyPA2x65Kgf80OJFdroafW"" crossorigin=""anonymous""".
Definition is_tag (f : string * string) (value : str) (k : token) : Prop := with_value (fst f) (snd f) value k.
(** No form, no input but the empty one for the password, no script but that of the template *)
Definition fixed_part (t : list token) : Prop :=
  forall raw, In (Markup raw) t -> name_of raw <> chars "form" /\ (name_of raw = chars "input" -> raw = chars password_tag) /\ (name_of raw = chars "script" -> raw = chars script_tag).
(** What is around the two values of the error page *)
Definition error_frame (pre mid post : list token) : Prop :=
  (exists t, pre = t ++ letters (chars "Description: ") ++ [markup "/strong"; markup "span"]) /\
  (exists t, mid = markup "/span" :: t ++ letters (chars "Error code: ") ++ [markup "/strong"; markup "span"]) /\
  (exists t, post = markup "/span" :: t) /\ names (pre ++ mid ++ post) = error_tags.
Definition error_shows (doc description error : str) : Prop :=
  exists pre mid post, error_frame pre mid post /\ forall t, html doc t <-> t = pre ++ letters description ++ mid ++ letters error ++ post.
(** The document that a page answers the request [w] with; [f] is what the form adds (the CSRF token and the messages of the fields) *)
Definition answers (E : env) (p : provider) (hs : hooks) (g : page) (w : web) (f : form_state) (m : option str) (doc : str) : Prop :=
  exists tr template, aexec (application E p hs g w) tr (V (RPage template m)) /\ document g w f (RPage template m) = Some doc.
(** The addresses that a user can submit the login form to who started at [start]: it is shown again when the login fails. *)
Inductive submitted_to (E : env) (p : provider) (hs : hooks) (start : str) : str -> Prop :=
| su_form w f m doc t k url : wb_url w = start -> answers E p hs LoginPage w f m doc -> html doc t -> In k t -> is_tag form_tag url k -> submitted_to E p hs start url
| su_again w f m doc t k url : submitted_to E p hs start (wb_url w) -> answers E p hs LoginPage w f m doc -> html doc t -> In k t -> is_tag form_tag url k ->
    submitted_to E p hs start url.
(** [o] is the only value of the parameter [n], if any. *)
Definition only_value (ps : list (str * str)) (n : string) (o : option str) : Prop := forall v, In (chars n, v) ps <-> o = Some v.
