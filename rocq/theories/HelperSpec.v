(** What response helpers leave, over the headers that handlers before them have
    set. *)
From Verif Require Import Base GoStr Strconv Header Router Ctx Util.
Local Open Scope Z_scope.

(** h is h0 but for the headers with these (canonical) names *)
Definition same_but (ks : list gostr) (h0 h : header) : Prop :=
  forall k, canon k ∉ ks -> h_values h k = h_values h0 k.

(** a redirect to loc: one Location, whatever was set before, and an HTML page for
    GET unless a Content-Type was set before *)
Definition redirect_over (r : request) (loc : gostr) (h0 h : header) : Prop :=
  h_values h (L "Location") = [loc] /\
  h_values h (L "Content-Type") =
    (if decide (h_get h0 (L "Content-Type") = [] /\ (rq_method r = L "GET" \/ rq_method r = L "HEAD"))
     then [L "text/html; charset=utf-8"] else h_values h0 (L "Content-Type")) /\
  same_but [L "Location"; L "Content-Type"] h0 h.
Definition redirect_page (r : request) (h0 : header) (text : gostr) : gostr :=
  if decide (h_get h0 (L "Content-Type") = [] /\ rq_method r = L "GET") then text else [].

(** an attachment, and a download *)
Definition attachment_over (disposition : gostr) (h0 h : header) : Prop :=
  h_values h (L "Content-Disposition") = [disposition] /\ same_but [L "Content-Disposition"] h0 h.
Definition download_over (disposition : gostr) (h0 h : header) : Prop :=
  h_values h (L "Content-Disposition") = [disposition] /\
  h_values h (L "Content-Description") = [L "File Transfer"] /\
  h_values h (L "Content-Type") = [L "application/octet-stream"] /\
  h_values h (L "Content-Transfer-Encoding") = [L "binary"] /\
  h_values h (L "Expires") = [L "0"] /\
  h_values h (L "Cache-Control") = [L "must-revalidate"] /\
  h_values h (L "Pragma") = [L "public"] /\
  same_but [L "Content-Disposition"; L "Content-Description"; L "Content-Type"; L "Content-Transfer-Encoding"; L "Expires";
    L "Cache-Control"; L "Pragma"] h0 h.

(** NoCache, and Stream *)
Definition no_cache_over (h0 h : header) : Prop :=
  h_values h (L "Cache-Control") = [L "no-cache, max-age=0, s-max-age=0, must-revalidate"] /\
  h_values h (L "Expires") = [L "0"] /\ same_but [L "Cache-Control"; L "Expires"] h0 h.
Definition typed_over (t : gostr) (h0 h : header) : Prop :=
  h_values h (L "Content-Type") = [t] /\ same_but [L "Content-Type"] h0 h.
