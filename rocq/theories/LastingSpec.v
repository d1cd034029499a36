(** The names a route binds otherwise than by a regexp segment that is not its last. *)
From Verif Require Import Base GoStr Pattern Tree TreeSpec.

Fixpoint lasting_names (g : nat) (r : list pat) : list gostr :=
  match r with
  | [] => []
  | [p] => route_names g [p]
  | p :: r' =>
      match p_typ p with
      | PStatic => lasting_names g r'
      | PRegexp => lasting_names g r'
      | PHolder => (if decide (p_parsed p = L "_") then [] else [p_parsed p]) ++ lasting_names g r'
      | PMatchAll =>
          (if decide (p_parsed p = []) then [star_name g]
           else if decide (p_parsed p = L "_") then [] else [p_parsed p]) ++ lasting_names (S g) r'
      end
  end.
