(** What the getters are for. *)
From Verif Require Import Base.

(** ** White space: the UTF-8 encodings of the runes with property White_Space *)
Definition bytes (l : list N) : gostr := map ascii_of_N l.
Definition space_runes : list gostr :=
  map bytes ([[9]; [10]; [11]; [12]; [13]; [32]; [194; 133]; [194; 160]; [225; 154; 128];
    [226; 128; 128]; [226; 128; 129]; [226; 128; 130]; [226; 128; 131]; [226; 128; 132]; [226; 128; 133];
    [226; 128; 134]; [226; 128; 135]; [226; 128; 136]; [226; 128; 137]; [226; 128; 138];
    [226; 128; 168]; [226; 128; 169]; [226; 128; 175]; [226; 129; 159]; [227; 128; 128]])%N.
(** [trimmed s t]: t is s without the white space at both ends *)
Definition trimmed (s t : gostr) : Prop :=
  exists l r, s = concat l ++ t ++ concat r /\ Forall (fun x => x ∈ space_runes) l /\ Forall (fun x => x ∈ space_runes) r /\
    (forall x t', x ∈ space_runes -> t <> x ++ t') /\ (forall x t', x ∈ space_runes -> t <> t' ++ x).

(** ** Map-valued parameters: [in_map key x n]: the form name n is written key[x] *)
Definition in_map (key x n : gostr) : Prop := n = key ++ L "[" ++ x ++ L "]".
(** the same followed by anything *)
Definition in_map_more (key x n : gostr) : Prop :=
  key <> [] /\ "["%char ∉ key /\ x <> [] /\ "]"%char ∉ x /\ exists r, n = key ++ L "[" ++ x ++ L "]" ++ r.
(** a form as http.Request.ParseForm builds it: every name has a value *)
Definition filled (m : gmap gostr (list gostr)) : Prop := forall k, m !! k <> Some [].
