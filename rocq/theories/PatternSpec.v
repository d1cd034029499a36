(** Specification: the grammar of route segments. *)
From Verif Require Import Base GoStr Pattern.

(** the part of s before / after the first c (all of s / nothing if there is none) *)
Definition before_byte (c : ascii) (s : gostr) : gostr :=
  match index_byte c s with Some i => take i s | None => s end.
Definition after_byte (c : ascii) (s : gostr) : gostr :=
  match index_byte c s with Some i => drop (S i) s | None => [] end.

(** the names: before the first colon, or if there is none before the first ~ *)
Definition name_part (body : gostr) : gostr :=
  if decide (":"%char ∈ body) then before_byte ":" body else before_byte "~" body.
Definition names (name : gostr) : list gostr := map trim_space (split_byte "," name).
Definition starts_with (c : ascii) (s : gostr) : Prop := exists r, s = c :: r.
Definition angle (body : gostr) : gostr := "<"%char :: body ++ [">"%char].

(** [seg_grammar re_ok s p]: s is a legal segment and p its meaning. *)
Inductive seg_grammar (re_ok : gostr -> bool) : gostr -> pat -> Prop :=
  | g_static s :
      trim_space s = s -> "<"%char ∉ s -> ">"%char ∉ s -> ~ starts_with "*" s ->
      seg_grammar re_ok s (mkPat PStatic s s [] None)
  | g_star s :
      trim_space ("*"%char :: s) = "*"%char :: s ->
      seg_grammar re_ok ("*"%char :: s) (mkPat PMatchAll ("*"%char :: s) s [] None)
  | g_named_star body nm :
      trim_space (name_part body) = "*"%char :: nm ->
      seg_grammar re_ok (angle body) (mkPat PMatchAll (angle body) nm [] None)
  | g_holder body name :
      name = trim_space (name_part body) -> ~ starts_with "*" name -> "~"%char ∉ body ->
      seg_grammar re_ok (angle body) (mkPat PHolder (angle body) name (names name) None)
  | g_regexp body name re :
      name = trim_space (name_part body) -> ~ starts_with "*" name ->
      "~"%char ∈ body -> ">"%char ∉ before_byte "~" body ->
      re = trim_space (before_byte ">" (after_byte "~" body)) ->
      ("("%char ∉ body /\ ")"%char ∉ body \/
       count_byte "(" re = length (names name) /\ count_byte ")" re = length (names name)) ->
      re_ok re = true ->
      seg_grammar re_ok (angle body) (mkPat PRegexp (angle body) name (names name) (Some re)).
