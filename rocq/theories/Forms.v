(** The forms of a request over several calls: content.go:152-154, 322-344,
    binding/form.go, and the functions of net/http (request.go) that they call. *)
From Verif Require Import Base GoStr Strconv Pattern Tree Header Router Ctx Util Binding.
Local Open Scope Z_scope.

Notation values := (gmap gostr (list gostr)).

Section Forms.
Context {D : Type}.
Notation fileset := (gmap gostr (list D)).

(** What the libraries make of a request: mime.ParseMediaType of the Content-Type
    (the type in lower case, whether there is no error, whether there is a boundary);
    url.ParseQuery of the query (the values, whether there is no error); reading
    and parsing the body as a query; and what the n-th call of
    multipart.Reader.ReadForm on the body gives (None: an error).  [late]: whether
    ParseMultipartForm goes on if ParseForm fails, as it does in newer versions of Go. *)
Record incoming := mkIncoming {
  in_req : request;
  in_media : gostr -> gostr * bool * bool;
  in_url : values * bool;
  in_post : values * bool;
  in_multi : nat -> option (values * fileset);
}.
Variable late : bool.
Variable r : incoming.

(** http.Request: Form, PostForm and MultipartForm (None: nil); the context's
    parsedParams; and, as a ghost, the memory given to the calls of ReadForm.
    Simplification: Request.MultipartReader is not called. *)
Record forms := mkForms {
  fm_form : option values;
  fm_post : option values;
  fm_multi : option (values * fileset);
  fm_parsed : bool;
  fm_reads : list Z;
}.
Definition no_forms : forms := mkForms None None None false [].

(** net/http copyValues, and the loop of ParseMultipartForm *)
Definition copyValues (dst src : values) : values := union_with (fun x y => Some (x ++ y)) dst src.

(** net/http parsePostForm; http.Request.Body of a server is not nil *)
Definition parsePostForm : values * bool :=
  let ct := h_get (rq_header (in_req r)) (L "Content-Type") in
  let ct := if seqb ct [] then L "application/octet-stream" else ct in
  let '(t, ok, _) := in_media r ct in
  if seqb t (L "application/x-www-form-urlencoded") then (fst (in_post r), ok && snd (in_post r)) else (∅, ok).
Definition has_post_body : bool :=
  let m := rq_method (in_req r) in seqb m (L "POST") || seqb m (L "PUT") || seqb m (L "PATCH").
(** net/http Request.ParseForm; whether there is no error *)
Definition ParseForm (s : forms) : forms * bool :=
  let '(post, ok1) :=
    match fm_post s with
    | Some p => (p, true)
    | None => if has_post_body then parsePostForm else (∅, true)
    end in
  let '(form, ok2) :=
    match fm_form s with
    | Some f => (f, true)
    | None => (copyValues post (fst (in_url r)), snd (in_url r))
    end in
  (mkForms (Some form) (Some post) (fm_multi s) (fm_parsed s) (fm_reads s), ok1 && ok2).
(** net/http Request.multipartReader(false): whether there is no error *)
Definition multipartReader : bool :=
  let ct := h_get (rq_header (in_req r)) (L "Content-Type") in
  negb (seqb ct []) && (let '(t, ok, boundary) := in_media r ct in ok && seqb t (L "multipart/form-data") && boundary).
(** net/http Request.ParseMultipartForm *)
Definition ParseMultipartForm (max : Z) (s : forms) : forms * bool :=
  let '(s, ok) := match fm_form s with None => ParseForm s | Some _ => (s, true) end in
  if negb ok && negb late then (s, false)
  else match fm_multi s with
  | Some _ => (s, true)
  | None =>
      if negb multipartReader then (s, false)
      else
        let s' := mkForms (fm_form s) (fm_post s) (fm_multi s) (fm_parsed s) (fm_reads s ++ [max]) in
        match in_multi r (length (fm_reads s)) with
        | None => (s', false)
        | Some (vs, fs) =>
            (mkForms (Some (copyValues (default ∅ (fm_form s)) vs)) (Some (copyValues (default ∅ (fm_post s)) vs))
               (Some (vs, fs)) (fm_parsed s) (fm_reads s ++ [max]), ok)
        end
  end.

(** net/http defaultMaxMemory *)
Definition defaultMaxMemory : Z := 32 * 1024 * 1024.
(** net/http Request.FormValue *)
Definition FormValue (key : gostr) (s : forms) : forms * gostr :=
  let s := match fm_form s with None => fst (ParseMultipartForm defaultMaxMemory s) | Some _ => s end in
  (s, hd [] (default [] (default ∅ (fm_form s) !! key))).
(** net/http Request.FormFile, to which content.go:152-154 FormFile leads; opening
    the file is left out *)
Inductive found := FFile (d : D) | FMissing | FError.
Definition FormFile (key : gostr) (s : forms) : forms * found :=
  let '(s, ok) := match fm_multi s with None => ParseMultipartForm defaultMaxMemory s | Some _ => (s, true) end in
  if negb ok then (s, FError)
  else (s, match fm_multi s with
           | Some (_, fs) => match default [] (fs !! key) with d :: _ => FFile d | [] => FMissing end
           | None => FMissing
           end).

(** the values of defaultMultipartMemory in content.go:324 and binding/form.go:10,
    which router.go:323-324 sets to the same *)
Variable memory : Z.
(** content.go:328-344 ParseFormOrMultipartForm; false: it panics *)
Definition ParseFormOrMultipartForm (s : forms) : forms * bool :=
  if fm_parsed s then (s, true)
  else
    let s := mkForms (fm_form s) (fm_post s) (fm_multi s) true (fm_reads s) in
    if is_multipart (in_req r) then ParseMultipartForm memory s else ParseForm s.

(** ** The calls of a handler that use a form *)
Inductive fcall :=
  | CQuery (name : gostr)        (* Query and the other accessors of query.go *)
  | CFormFile (name : gostr)     (* ctx.FormFile *)
  | CFormValue (name : gostr)    (* ctx.Request.FormValue *)
  | CBindWith (b : binder)       (* ctx.BindWith *)
  | CBind.                       (* ctx.Bind *)
(** and what they find: the values, an uploaded file, what a binder is to fill its
    target from, an error, a panic *)
Inductive fans :=
  | AValues (vs : list gostr)
  | AValue (v : gostr)
  | AFile (f : found)
  | ASource (vs : values) (fs : fileset)
  | AOther                       (* the query, the headers or the body are bound *)
  | AError
  | APanic.

(** content.go:299-305 BindWith with binding/form.go:37-42, 71-78.  JSON and XML
    binders are left out: they read the body, see BindCtx.v. *)
Definition form_BindWith (b : binder) (s : forms) : forms * fans :=
  match b with
  | BJSON | BXML => (s, AOther)
  | _ =>
      let '(s, ok) := ParseFormOrMultipartForm s in
      if negb ok then (s, APanic)
      else match b with
      | BForm =>
          let '(s, ok) := match fm_form s with None => ParseForm s | Some _ => (s, true) end in
          (s, if ok : bool then ASource (default ∅ (fm_form s)) ∅ else AError)
      | BMultipart =>
          let '(s, ok) := match fm_multi s with None => ParseMultipartForm memory s | Some _ => (s, true) end in
          (s, if ok : bool then match fm_multi s with Some (vs, fs) => ASource vs fs | None => APanic end else AError)
      | _ => (s, AOther)
      end
  end.
Definition fdo (c : fcall) (s : forms) : forms * fans :=
  match c with
  | CQuery name =>                                               (* query.go:21-30, 69-76 *)
      let '(s, ok) := ParseFormOrMultipartForm s in
      (s, if ok : bool then AValues (default [] (default ∅ (fm_form s) !! name)) else APanic)
  | CFormFile name => let '(s, f) := FormFile name s in (s, AFile f)
  | CFormValue name => let '(s, v) := FormValue name s in (s, AValue v)
  | CBindWith b => form_BindWith b s
  | CBind =>                                                     (* content.go:289-296 *)
      let b := NewBindinger (rq_method (in_req r)) (filterFlags (h_get (rq_header (in_req r)) (L "Content-Type"))) in
      match b with
      | BJSON | BXML => form_BindWith b s
      | _ => let '(s, ok) := ParseFormOrMultipartForm s in if ok : bool then form_BindWith b s else (s, APanic)
      end
  end.
(** the calls of all handlers of a request, one after the other (panics are
    recovered), and their answers *)
Fixpoint fdos (cs : list fcall) (s : forms) : forms * list fans :=
  match cs with
  | [] => (s, [])
  | c :: cs => let '(s, a) := fdo c s in let '(s, l) := fdos cs s in (s, a :: l)
  end.
End Forms.
Arguments mkIncoming {D}.
Arguments forms : clear implicits.
