(** How headers with tags are read, whether they are well-formed or not. *)
From Verif Require Import Base GoStr Header CondSpec TagSpec.
Local Open Scope Z_scope.

Definition space (a : ascii) : Prop := a = " "%char \/ a = "009"%char \/ a = "010"%char \/ a = "013"%char.
(** A list is read from the left, over tags and commas, until a star or a tag that is the
    same; nothing is found behind anything else. *)
Inductive reaches (same : gostr -> Prop) : gostr -> Prop :=
  | re_star w s : Forall space w -> reaches same (w ++ L "*" ++ s)
  | re_tag w t s : Forall space w -> entity_tag t -> same t -> reaches same (w ++ t ++ s)
  | re_comma w s : Forall space w -> reaches same s -> reaches same (w ++ L "," ++ s)
  | re_next w t s : Forall space w -> entity_tag t -> reaches same s -> reaches same (w ++ t ++ s).
(** a header that begins with a tag *)
Definition opens (s t : gostr) : Prop := exists w r, s = w ++ t ++ r /\ Forall space w /\ entity_tag t.

Section Spec.
Variable parse_time : gostr -> option Z.
(** the request may proceed, by If-Match and If-Unmodified-Since *)
Definition any_proceeds (T : gostr) (m : option Z) (h : gostr -> gostr) : Prop :=
  h (L "If-Match") <> [] /\ reaches (strongly T) (h (L "If-Match")) \/
  h (L "If-Match") = [] /\ ~ newer parse_time m (h (L "If-Unmodified-Since")).
(** who asks has the file already, by If-None-Match and If-Modified-Since *)
Definition any_has_it (T : gostr) (m : option Z) (h : gostr -> gostr) : Prop :=
  h (L "If-None-Match") <> [] /\ reaches (weakly T) (h (L "If-None-Match")) \/
  h (L "If-None-Match") = [] /\ unchanged_since parse_time m (h (L "If-Modified-Since")).
(** the parts that it has are of this file, by If-Range: a tag, or else a date *)
Definition any_same_file (T : gostr) (m : option Z) (h : gostr -> gostr) : Prop :=
  h (L "If-Range") = [] \/ (exists t, opens (h (L "If-Range")) t /\ strongly T t) \/
  (forall t, ~ opens (h (L "If-Range")) t) /\ exists t, m = Some t /\ parse_time (h (L "If-Range")) = Some t.
Inductive any_answers (T : gostr) (m : option Z) (h : gostr -> gostr) : answer -> Prop :=
  | aa_fails : ~ any_proceeds T m h -> any_answers T m h Precondition
  | aa_has : any_proceeds T m h -> any_has_it T m h -> any_answers T m h NotModified
  | aa_content rg : any_proceeds T m h -> ~ any_has_it T m h ->
      (any_same_file T m h -> rg = h (L "Range")) -> (~ any_same_file T m h -> rg = []) -> any_answers T m h (Content rg).
End Spec.
