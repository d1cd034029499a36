(** What the calls that use a form find in a request. *)
From Verif Require Import Base GoStr Pattern Tree Header Router Ctx CallSpec Binding BindingSpec Forms.
Local Open Scope Z_scope.

Definition of {X} (m : gmap gostr (list X)) (k : gostr) : list X := match m !! k with Some l => l | None => [] end.

Section Spec.
Context {D : Type}.
Notation fileset := (gmap gostr (list D)).
Definition content_type (r : incoming (D:=D)) : gostr := h_get (rq_header (in_req r)) (L "Content-Type").
Definition body_method (r : incoming (D:=D)) : Prop := rq_method (in_req r) ∈ [L "POST"; L "PUT"; L "PATCH"].
(** the requests without errors, the values of their forms, and what was uploaded:
    a form in the body and the query, an upload and the query, or the query alone *)
Inductive holds (r : incoming (D:=D)) : (gostr -> list gostr) -> option (values * fileset) -> Prop :=
  | holds_body post url bd :
      body_method r -> in_media r (content_type r) = (L "application/x-www-form-urlencoded", true, bd) -> content_type r <> [] ->
      ~ multipart_request (in_req r) -> in_post r = (post, true) -> in_url r = (url, true) ->
      holds r (fun k => of post k ++ of url k) None
  | holds_upload vs fs url :
      multipart_request (in_req r) -> in_media r (content_type r) = (L "multipart/form-data", true, true) ->
      in_multi r 0 = Some (vs, fs) -> in_url r = (url, true) ->
      holds r (fun k => of url k ++ of vs k) (Some (vs, fs))
  | holds_query t ok bd url :
      in_media r (if decide (content_type r = []) then L "application/octet-stream" else content_type r) = (t, ok, bd) ->
      t <> L "multipart/form-data" ->
      (body_method r -> ok = true /\ t <> L "application/x-www-form-urlencoded") ->
      ~ multipart_request (in_req r) -> in_url r = (url, true) ->
      holds r (fun k => of url k) None.

(** a binder is given what belongs to it *)
Inductive gives (vals : gostr -> list gostr) (up : option (values * fileset)) : binder -> fans (D:=D) -> Prop :=
  | gives_form f : (forall k, of f k = vals k) -> gives vals up BForm (ASource f ∅)
  | gives_upload vs fs : up = Some (vs, fs) -> gives vals up BMultipart (ASource vs fs)
  | gives_error : up = None -> gives vals up BMultipart AError
  | gives_other b : b ∈ [BJSON; BXML; BQuery; BHeader] -> gives vals up b AOther.
(** the answer to a call in a request with these values and this upload *)
Inductive replies (r : incoming (D:=D)) (vals : gostr -> list gostr) (up : option (values * fileset)) : fcall -> fans (D:=D) -> Prop :=
  | replies_query k : replies r vals up (CQuery k) (AValues (vals k))
  | replies_value k v l : vals k = v :: l -> replies r vals up (CFormValue k) (AValue v)
  | replies_no_value k : vals k = [] -> replies r vals up (CFormValue k) (AValue [])
  | replies_file k vs fs d l : up = Some (vs, fs) -> of fs k = d :: l -> replies r vals up (CFormFile k) (AFile (FFile d))
  | replies_no_file k vs fs : up = Some (vs, fs) -> of fs k = [] -> replies r vals up (CFormFile k) (AFile FMissing)
  | replies_no_upload k : up = None -> replies r vals up (CFormFile k) (AFile FError)
  | replies_bind_with b a : gives vals up b a -> replies r vals up (CBindWith b) a
  | replies_bind m b a : media_type (content_type r) m -> chooses (rq_method (in_req r)) m b -> gives vals up b a -> replies r vals up CBind a.

(** calls that leave the form alone, and calls that go to net/http directly *)
Definition idle (r : incoming (D:=D)) (c : fcall) : Prop :=
  c = CBindWith BJSON \/ c = CBindWith BXML \/
  c = CBind /\ exists m b, media_type (content_type r) m /\ chooses (rq_method (in_req r)) m b /\ b ∈ [BJSON; BXML].
Definition direct (c : fcall) : Prop := exists k, c = CFormFile k \/ c = CFormValue k.
End Spec.
