(** Specification of forms: how a client writes pairs of names and values as a
    query or as the body of a form (application/x-www-form-urlencoded), and what a
    form has to hold.  Independent of the functions of NetQuery. *)
From Coq Require Import ZArith NArith.
From Verif Require Import Base UtilSpec.

(** [spelled stops s t]: t is a way to write s in which the bytes of [stops] do not
    stand for themselves: a byte can be written as it is, as % and two hexadecimal
    digits in upper or lower case, and a space as + *)
Inductive spelled (stops : gostr) : gostr -> gostr -> Prop :=
  | sp_nil : spelled stops [] []
  | sp_plain a s t : a ∉ stops -> spelled stops s t -> spelled stops (a :: s) (a :: t)
  | sp_plus s t : spelled stops s t -> spelled stops (" "%char :: s) ("+"%char :: t)
  | sp_hex a x y h l s t : hex_val x = Some h -> hex_val y = Some l -> N_of_ascii a = (16 * h + l)%N ->
      spelled stops s t -> spelled stops (a :: s) ("%"%char :: x :: y :: t).
Definition name_spelled := spelled (L "%+&;=").
Definition value_spelled := spelled (L "%+&;").

(** a pair: name=value, or only a name if the value is empty *)
Inductive pair_text : gostr * gostr -> gostr -> Prop :=
  | pt_both k v tk tv : name_spelled k tk -> value_spelled v tv -> pair_text (k, v) (tk ++ L "=" ++ tv)
  | pt_name k tk : name_spelled k tk -> tk <> [] -> pair_text (k, []) tk.

(** what stands between two separators, and whether it is well-formed *)
Inductive piece : gostr -> list (gostr * gostr) -> bool -> Prop :=
  | pc_empty : piece [] [] true
  | pc_pair p t : pair_text p t -> piece t [p] true
  | pc_bad t : t <> [] -> "&"%char ∉ t -> ";"%char ∉ t -> (forall p, ~ pair_text p t) -> piece t [] false.

(** [query_text q ps ok]: q holds the pairs ps, in this order, separated by & or ;
    and nothing else if ok, malformed pieces too otherwise *)
Inductive query_text : gostr -> list (gostr * gostr) -> bool -> Prop :=
  | qt_last t ps ok : piece t ps ok -> query_text t ps ok
  | qt_more t ps ok c q ps' ok' : piece t ps ok -> c ∈ L "&;" -> query_text q ps' ok' ->
      query_text (t ++ c :: q) (ps ++ ps') (ok && ok').

(** the values of a name among pairs, in their order *)
Definition values_of (name : gostr) (ps : list (gostr * gostr)) : list gostr :=
  map snd (List.filter (fun p => bool_decide (fst p = name)) ps).
(** the form holds these pairs, and nothing else *)
Definition holds (f : gmap gostr (list gostr)) (ps : list (gostr * gostr)) : Prop :=
  forall name, f !! name = match values_of name ps with [] => None | vs => Some vs end.

(** ** Requests *)
From Verif Require Import Ctx Header.
(** the query of a request: what follows the first ? of the request target *)
Inductive asks (r : request) : gostr -> Prop :=
  | asks_nothing : "?"%char ∉ rq_uri r -> asks r []
  | asks_query p q : rq_uri r = p ++ L "?" ++ q -> "?"%char ∉ p -> asks r q.
Definition sends_body (r : request) : Prop := rq_method r ∈ [L "POST"; L "PUT"; L "PATCH"].
(** the Content-Type of a request, where a missing one means unknown bytes *)
Definition content_type (r : request) : gostr :=
  match h_get (rq_header r) (L "Content-Type") with [] => L "application/octet-stream" | t => t end.
(** a Content-Type that net/http takes for that of a form or of a multipart form *)
Definition form_type : gostr := L "application/x-www-form-urlencoded".

(** [sent media fields r body ps ok]: the pairs that a request with this unread body
    sends, in the order in which net/http keeps them, and whether all of it is
    well-formed.  [media]: the media type of a Content-Type and whether it is
    well-formed; [fields]: the fields of a multipart body. *)
Inductive sent (media : gostr -> gostr * bool) (r : request) (body : gostr * bool) : list (gostr * gostr) -> bool -> Prop :=
  | sent_query q ps ok : ~ sends_body r -> asks r q -> query_text q ps ok -> sent media r body ps ok
  | sent_other q ps ok t : sends_body r -> media (content_type r) = (t, true) -> t <> form_type ->
      asks r q -> query_text q ps ok -> sent media r body ps ok
  | sent_form q ps ok bs ok' : sends_body r -> media (content_type r) = (form_type, true) ->
      (N.of_nat (length (fst body)) <= 10485760)%N -> snd body = true ->
      query_text (fst body) bs ok' -> asks r q -> query_text q ps ok ->
      sent media r body (bs ++ ps) (ok' && ok)
  | sent_badtype q ps ok t : sends_body r -> media (content_type r) = (t, false) -> t <> form_type ->
      asks r q -> query_text q ps ok -> sent media r body ps false
  | sent_badform q ps ok bs ok' : sends_body r -> media (content_type r) = (form_type, false) ->
      (N.of_nat (length (fst body)) <= 10485760)%N -> snd body = true ->
      query_text (fst body) bs ok' -> asks r q -> query_text q ps ok ->
      sent media r body (bs ++ ps) false
  | sent_broken q ps ok b : sends_body r -> media (content_type r) = (form_type, b) ->
      (10485760 < N.of_nat (length (fst body)))%N \/ snd body = false ->
      asks r q -> query_text q ps ok -> sent media r body ps false.
