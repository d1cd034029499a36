(** What conditional requests get for a file to which a handler has given a tag of
    its own (RFC 7232). *)
From Verif Require Import Base GoStr Header CondSpec.
Local Open Scope Z_scope.

(** entity-tag = [ "W/" ] DQUOTE *etagc DQUOTE *)
Definition etagc (a : ascii) : Prop :=
  N_of_ascii a = 33%N \/ (35 <= N_of_ascii a <= 126)%N \/ (128 <= N_of_ascii a)%N.
Definition tag_of (weak : bool) (o : gostr) : gostr := (if weak then L "W/" else []) ++ L """" ++ o ++ L """".
Definition entity_tag (t : gostr) : Prop := exists weak o, t = tag_of weak o /\ Forall etagc o.

(** lists of tags: elements between commas, with blanks around them; elements may be
    empty *)
Definition blank (a : ascii) : Prop := a = " "%char \/ a = "009"%char.
Inductive tag_list : list gostr -> gostr -> Prop :=
  | tl_end w : Forall blank w -> tag_list [] w
  | tl_last w t w' : Forall blank w -> entity_tag t -> Forall blank w' -> tag_list [t] (w ++ t ++ w')
  | tl_skip w ts s : Forall blank w -> tag_list ts s -> tag_list ts (w ++ L "," ++ s)
  | tl_more w t w' ts s : Forall blank w -> entity_tag t -> Forall blank w' -> tag_list ts s ->
      tag_list (t :: ts) (w ++ t ++ w' ++ L "," ++ s).

(** strong comparison: both tags are strong and the same; weak comparison: what is
    quoted is the same *)
Definition strongly (T t : gostr) : Prop := exists o, T = tag_of false o /\ t = tag_of false o.
Definition weakly (T t : gostr) : Prop := exists w w' o, T = tag_of w o /\ t = tag_of w' o.

(** a header with tags: none, the star, or a list *)
Definition tag_header (s : gostr) : Prop := s = [] \/ s = L "*" \/ exists ts, tag_list ts s.
Definition names (same : gostr -> Prop) (s : gostr) : Prop := s = L "*" \/ exists ts t, tag_list ts s /\ t ∈ ts /\ same t.

(** headers of a request in the form of the specifications *)
Definition proper_conditions (h : gostr -> gostr) : Prop :=
  tag_header (h (L "If-Match")) /\ tag_header (h (L "If-None-Match")) /\ (entity_tag (h (L "If-Range")) \/ """"%char ∉ h (L "If-Range")).

Section Spec.
Variable parse_time : gostr -> option Z.
(** the request may proceed, by If-Match and If-Unmodified-Since *)
Definition proceeds (T : gostr) (m : option Z) (h : gostr -> gostr) : Prop :=
  h (L "If-Match") <> [] /\ names (strongly T) (h (L "If-Match")) \/
  h (L "If-Match") = [] /\ ~ newer parse_time m (h (L "If-Unmodified-Since")).
(** who asks has the file already, by If-None-Match and If-Modified-Since *)
Definition has_it (T : gostr) (m : option Z) (h : gostr -> gostr) : Prop :=
  h (L "If-None-Match") <> [] /\ names (weakly T) (h (L "If-None-Match")) \/
  h (L "If-None-Match") = [] /\ unchanged_since parse_time m (h (L "If-Modified-Since")).
(** the parts that it has are of this file, by If-Range *)
Definition same_file (T : gostr) (m : option Z) (h : gostr -> gostr) : Prop :=
  h (L "If-Range") = [] \/ strongly T (h (L "If-Range")) \/ exists t, m = Some t /\ parse_time (h (L "If-Range")) = Some t.

Inductive tag_answers (T : gostr) (m : option Z) (h : gostr -> gostr) : answer -> Prop :=
  | ta_fails : ~ proceeds T m h -> tag_answers T m h Precondition
  | ta_has : proceeds T m h -> has_it T m h -> tag_answers T m h NotModified
  | ta_content rg : proceeds T m h -> ~ has_it T m h ->
      (same_file T m h -> rg = h (L "Range")) -> (~ same_file T m h -> rg = []) -> tag_answers T m h (Content rg).
End Spec.
