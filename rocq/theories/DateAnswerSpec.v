(** What requests for a file get whose only condition, if any, is a date. *)
From Verif Require Import Base GoStr CondSpec RangeSpec DateSpec DateOldSpec.
Local Open Scope Z_scope.

(** [h]: the headers of the request; t: when the file was modified *)
Inductive by_date (h : gostr -> gostr) (t : Z) : answer -> Prop :=
  | bd_plain : unconditional h -> by_date h t (Content (h (L "Range")))
  | bd_same s u : only_condition h (L "If-Modified-Since") s -> any_date s u -> t <= u -> by_date h t NotModified
  | bd_newer s u : only_condition h (L "If-Modified-Since") s -> any_date s u -> u < t -> by_date h t (Content (h (L "Range")))
  | bd_failed s u : only_condition h (L "If-Unmodified-Since") s -> any_date s u -> u < t -> by_date h t Precondition
  | bd_passed s u : only_condition h (L "If-Unmodified-Since") s -> any_date s u -> t <= u -> by_date h t (Content (h (L "Range")))
  | bd_parts s : only_condition h (L "If-Range") s -> any_date s t -> by_date h t (Content (h (L "Range")))
  | bd_all s u : only_condition h (L "If-Range") s -> any_date s u -> u <> t -> by_date h t (Content []).
