(** HTTP headers as package net/http represents them: http.Header and
    textproto.CanonicalMIMEHeaderKey (outside the repository; modelled because
    water sets and reads headers through them). *)
From Verif Require Import Base GoStr.

(** textproto.validHeaderFieldByte: letters, digits and !#$%&'*+-.^_`|~ *)
Definition token_byte (a : ascii) : bool :=
  let n := byte_of a in
  ((48 <=? n) && (n <=? 57) || (65 <=? n) && (n <=? 90) || (97 <=? n) && (n <=? 122))%N
  || existsb (Ascii.eqb a) (L "!#$%&'*+-.^_`|~").

(** the letter case of a canonical key: upper after the beginning or a hyphen *)
Fixpoint canon_case (upper : bool) (s : gostr) : gostr :=
  match s with
  | [] => []
  | a :: s' => (if upper then upper_byte a else lower_byte a) :: canon_case (Ascii.eqb a "-") s'
  end.
(** textproto.CanonicalMIMEHeaderKey: keys with other bytes are left alone *)
Definition canon (k : gostr) : gostr := if forallb token_byte k then canon_case true k else k.

Notation header := (gmap gostr (list gostr)).

(** http.Header.Get, Set, Add, Del *)
Definition h_values (h : header) (k : gostr) : list gostr :=
  match h !! canon k with Some l => l | None => [] end.
Definition h_get (h : header) (k : gostr) : gostr :=
  match h_values h k with v :: _ => v | [] => [] end.
Definition h_set (h : header) (k v : gostr) : header := <[canon k := [v]]> h.
Definition h_add (h : header) (k v : gostr) : header := <[canon k := h_values h k ++ [v]]> h.
Definition h_del (h : header) (k : gostr) : header := delete (canon k) h.

Lemma h_get_set h k v : h_get (h_set h k v) k = v.
Proof. unfold h_get, h_values, h_set. by rewrite lookup_insert. Qed.
