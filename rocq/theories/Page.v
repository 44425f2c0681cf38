(** Model of the pages of the example application: example/templates, rendered as Jinja2 2.11.3 does with the settings of
    Starlette 0.14.2 ([autoescape=True], everything else as the defaults), and the inputs as WTForms 2.3.3 renders them. *)
From Coq Require Import String Ascii List NArith ZArith Bool.
From Verif Require Import Base Webtools Prog Http OAuth App.
Import ListNotations.
Open Scope N_scope.

(** markupsafe 1.1.1 [escape] of a str: the five characters, each by its reference *)
Definition escape1 (c : N) : str :=
  if c =? 38 then lit "&amp;" else if c =? 62 then lit "&gt;" else if c =? 60 then lit "&lt;"
  else if c =? 39 then lit "&#39;" else if c =? 34 then lit "&#34;" else [c].
Definition escape (s : str) : str := flat_map escape1 s.
(** ... of None: its [str()] *)
Definition escape_value (o : option str) : str := match o with Some s => escape s | None => lit "None" end.

(** example/templates/base.j2, with the blocks [stylesheets] and [main_content] filled; the block [scripts] is always empty. *)
Definition base_document (title stylesheets main : str) : str :=
  lit "<!DOCTYPE html>
<html lang=""en-us"">
<head>
    <meta charset=""UTF-8"">
    <meta name=""viewport"" content=""width=device-width, initial-scale=1, shrink-to-fit=no"">

    <title>" ++ escape title ++ lit " - Psion</title>

    <link href=""https://cdn.jsdelivr.net/npm/bootstrap@5.0.0-beta1/dist/css/bootstrap.min.css"" rel=""stylesheet"" integrity=""sha384-giJF6kkoqNQ00vy+HMDP7azOuL0xtbfIcaT9wjKHr8RbDVddVHyTfAAsrekwKmP1"" crossorigin=""anonymous"">
    " ++ stylesheets ++ lit "
</head>

<body>
    <div class=""container-fluid"">
        " ++ main ++ lit "
    </div>

    <script src=""https://cdn.jsdelivr.net/npm/bootstrap@5.0.0-beta1/dist/js/bootstrap.bundle.min.js"" integrity=""sha384-ygbV9kiqUc6oa4msXn9868pTtWMgiQaeYH7/t7LECLbyPA2x65Kgf80OJFdroafW"" crossorigin=""anonymous""></script>
    
</body>
</html>".

(** example/templates/error.j2 with the context of example/views/connect.py 31-39 *)
Definition error_document (description error : option str) : str :=
  base_document (lit "Error") [] (lit "
<strong>Description: </strong><span>" ++ escape_value description ++ lit "</span>
<br>
<strong>Error code: </strong><span>" ++ escape_value error ++ lit "</span>
").
(** example/templates/index.j2 with the context of example/views/__init__.py 10 *)
Definition index_document : str := base_document (lit "Home") [] (lit "
    <p>Hello, World!</p>
").

(** wtforms/widgets/core.py [html_params]: the attributes in the order of their names, [required] without a value *)
Definition attribute (name : string) (value : str) : str := lit name ++ lit "=""" ++ escape value ++ lit """".
(** The three fields of example/forms/login.py 6-24, with the arguments of example/templates/login.j2 18-29.  The password is
    not shown again ([PasswordInput] has [hide_value=True]). *)
Definition csrf_input (token : str) : str := lit "<input id=""csrf_token"" name=""csrf_token"" type=""hidden"" " ++ attribute "value" token ++ lit ">".
Definition email_input (email : str) : str :=
  lit "<input aria-describedby=""email-help"" class=""form-control"" id=""email"" name=""email"" placeholder=""Email*"" required type=""text"" " ++
  attribute "value" email ++ lit ">".
Definition password_input : str :=
  lit "<input aria-describedby=""password-help"" class=""form-control"" id=""password"" name=""password"" placeholder=""Password*"" required type=""password"" value="""">".
(** The loops of login.j2 23-25 and 31-33 *)
Definition field_errors (id : string) (errors : list str) : str :=
  flat_map (fun e => lit "
                <small id=""" ++ lit id ++ lit """ class=""form-text text-danger"">" ++ escape e ++ lit "</small>
                ") errors.
(** example/templates/login.j2 with the contexts of example/views/auth.py 27-35, 43-51, 56-65 and 68-77.  [static] is the URL of
    the style sheet, [action] is [login_and_next], [message] is [validation_error]. *)
Definition login_document (static action : str) (message : option str) (token email : str) (email_errors password_errors : list str) : str :=
  base_document (lit "Login") (lit "
<link rel=""stylesheet"" type=""text/css"" href=""" ++ escape static ++ lit """>
") (lit "
<div class=""row align-items-center background"">
    <div class=""col-1 col-md-3 col-lg-4 col-xl-5""></div>
    <div class=""col-10 col-md-6 col-lg-4 col-xl-2 jumbotron form-wrapper"">
        <form action=""" ++ escape action ++ lit """ method=""post"" class=""mb-4"">
            <h1 class=""mb-5 text-center"">Login</h1>

            " ++ match message with
                 | Some (c :: m) => lit "
            <div class=""alert alert-danger mb-4"">" ++ escape (c :: m) ++ lit "</div>
            "
                 | _ => []
                 end ++ lit "

            " ++ csrf_input token ++ lit "

            <div class=""form-group mb-4"">
                " ++ email_input email ++ lit "
                <small id=""email-help"" class=""form-text text-muted"">Example: johndoe@gmail.com</small>
                " ++ field_errors "email-error" email_errors ++ lit "
            </div>

            <div class=""form-group mb-4"">
                " ++ password_input ++ lit "
                <small id=""password-help"" class=""form-text text-muted"">Between 8 and 64 characteres.</small>
                " ++ field_errors "password-error" password_errors ++ lit "
            </div>

            <button type=""submit"" class=""btn login-btn form-btn text-light"">Login</button>
        </form>
    </div>
    <div class=""col-1 col-md-3 col-lg-4 col-xl-5""></div>
</div>
").

(** example/views/connect.py 27-40 *)
Definition error_page (w : web) : str :=
  error_document (query_param (wb_url w) (lit "error_description")) (query_param (wb_url w) (lit "error")).
(** What the forms add to a page: the CSRF token and the messages of the two fields *)
Record form_state := { fs_token : str; fs_email : list str; fs_password : list str }.
(** example/views/auth.py 25-35 and 41-77: the field shows the submitted address, on GET none. *)
Definition login_page (w : web) (message : option str) (f : form_state) : str :=
  login_document (wb_base w ++ lit "/static/css/forms.css") (wb_url w) message (fs_token f)
    (if is_post w then lf_email (wb_form w) else []) (fs_email f) (fs_password f).
(** The document of a reply: the template that the view renders *)
Definition document (g : page) (w : web) (f : form_state) (r : reply) : option str :=
  match g, r with
  | Home, RPage _ _ => Some index_document
  | LoginPage, RPage _ m => Some (login_page w m f)
  | ErrorPage, RPage _ _ => Some (error_page w)
  | _, _ => None
  end.
