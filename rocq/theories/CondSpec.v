(** What conditional requests for a file with a tag of water get. *)
From Verif Require Import Base GoStr Header.
Local Open Scope Z_scope.

Section Spec.
Variable parse_time : gostr -> option Z.

(** the file, modified at m, is newer than the date that a header gives; it is not *)
Definition newer (m : option Z) (s : gostr) : Prop :=
  exists t u, m = Some t /\ s <> [] /\ parse_time s = Some u /\ u < t.
Definition unchanged_since (m : option Z) (s : gostr) : Prop :=
  exists t u, m = Some t /\ s <> [] /\ parse_time s = Some u /\ t <= u.
(** the value of If-Range lets the Range header take effect *)
Definition in_range (m : option Z) (s : gostr) : Prop :=
  s = [] \/ exists t, m = Some t /\ parse_time s = Some t.

(** The request may proceed, by If-Match and If-Unmodified-Since: a tag in If-Match
    never is the right one, only a star is. *)
Definition passes (m : option Z) (h : gostr -> gostr) : Prop :=
  h (L "If-Match") = L "*" \/ h (L "If-Match") = [] /\ ~ newer m (h (L "If-Unmodified-Since")).

(** The answer: 412, 304 or (a part of) the content, where rg is the Range that is
    obeyed.  [h] gives the headers of the request, T is the tag, m the time of
    modification. *)
Inductive answer := Precondition | NotModified | Content (rg : gostr).
Inductive answers (T : gostr) (m : option Z) (h : gostr -> gostr) : answer -> Prop :=
  | an_same : h (L "If-None-Match") = T -> answers T m h NotModified
  | an_fails : h (L "If-None-Match") <> T -> ~ passes m h -> answers T m h Precondition
  | an_any : h (L "If-None-Match") = L "*" -> passes m h -> answers T m h NotModified
  | an_since : h (L "If-None-Match") = [] -> T <> [] -> passes m h ->
      unchanged_since m (h (L "If-Modified-Since")) -> answers T m h NotModified
  | an_content rg : h (L "If-None-Match") <> T -> h (L "If-None-Match") <> L "*" -> passes m h ->
      (h (L "If-None-Match") = [] -> ~ unchanged_since m (h (L "If-Modified-Since"))) ->
      (in_range m (h (L "If-Range")) -> rg = h (L "Range")) -> (~ in_range m (h (L "If-Range")) -> rg = []) ->
      answers T m h (Content rg).
(** headers that say nothing of the content, and headers with its date *)
Definition no_entity (hd : header) : Prop :=
  forall k, k ∈ [L "Content-Type"; L "Content-Length"; L "Last-Modified"] -> hd !! k = None.
Definition dated (http_date : Z -> gostr) (m : option Z) (hd : header) : Prop :=
  forall t, m = Some t -> h_get hd (L "Last-Modified") = http_date t.
(** a list of tags without a star, or the star *)
Definition tags_or_star (s : gostr) : Prop := "*"%char ∉ s \/ s = L "*".
End Spec.
