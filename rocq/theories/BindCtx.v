(** ctx.Bind and ctx.BindWith (content.go:288-305), as programs over the Context.
    [k] is what the handler does with the target and the error. *)
From Verif Require Import Base GoStr Strconv Pattern Tree Header Router Ctx Util Binding.

Section BindCtx.
Context {V D : Type} (G : golib D).
Notation gobj := (option (gotype * goval D)).
(** Parts of package net/http and of the decoders: Request.MultipartForm after
    parsing (None: it was not parsed yet and ParseMultipartForm fails, as it does for
    requests of another type), Request.URL.Query(), and decoding a body as JSON or XML (the bytes, and
    whether they end with io.EOF). *)
Variable mform : request -> option (gmap gostr (list gostr) * gmap gostr (list D)).
Variable query : request -> gmap gostr (list gostr).
Variable json_body xml_body : gostr * bool -> gobj -> gobj * bool.

(** what the binders see of the request *)
Definition source_of (r : request) (f : option (gmap gostr (list gostr))) (body : gostr * bool) : source :=
  let m := default (∅, ∅) (mform r) in
  mkSource (default ∅ f) (fst m) (snd m) (query r) (rq_header r) (json_body body) (xml_body body).

(** content.go:299-305 BindWith (the method Bind of the binder is called on
    ctx.Request).  Simplification: the decoders read all of the body, and what
    follows the first value is lost; they may leave a part of a long one unread, which
    the deferred Close (binding/json.go:25, binding/xml.go:19) makes unreadable unless
    the body is in memory.  What the multipart binder leaves of the body where
    ParseFormOrMultipartForm took the request for another kind of form is not modelled
    here; see Forms.v. *)
Definition BindWith (fuel : nat) (obj : gobj) (b : binder) (k : gobj * bout -> prog V) : prog V :=
  match b with
  | BJSON | BXML =>
      PDo OBodyReadAll (fun body => PDo OBodyClose (fun _ => PDo ORequest (fun r => k (binder_Bind G fuel b (source_of r None body) obj))))
  | _ =>
      PDo OParseForm (fun _ => PDo OForm (fun f => PDo ORequest (fun r => 
        k (match b, mform r with
           | BMultipart, None => (obj, BErr EForm)     (* binding/form.go:72-76 *)
           | _, _ => binder_Bind G fuel b (source_of r f ([], true)) obj
           end))))
  end.
(** content.go:289-296 Bind *)
Definition Bind (fuel : nat) (obj : gobj) (k : gobj * bout -> prog V) : prog V :=
  PDo ORequest (fun r =>
    let b := NewBindinger (rq_method r) (filterFlags (h_get (rq_header r) (L "Content-Type"))) in
    match b with
    | BJSON | BXML => BindWith fuel obj b k
    | _ => PDo OParseForm (fun _ => BindWith fuel obj b k)
    end).
End BindCtx.
