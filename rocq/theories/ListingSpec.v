(** What the listings of routes should show, in terms of the registration history. *)
From Coq Require Import Sorted.
From Verif Require Import Base GoStr Strconv Pattern Tree TreeSpec Router RouterSpec.

(** text made of lines *)
Definition lines (ts : list gostr) : gostr := concat (map (fun t => t ++ ["010"%char]) ts).

(** a number in decimal *)
Definition number (n : nat) : gostr := itoa (Z.of_nat n).

(** s filled up with spaces to w columns, on the right or on the left *)
Definition filled_right (w : nat) (s t : gostr) : Prop :=
  exists k, t = s ++ replicate k " "%char /\ length t = Nat.max w (length s).
Definition filled_left (w : nat) (s t : gostr) : Prop :=
  exists k, t = replicate k " "%char ++ s /\ length t = Nat.max w (length s).

(** the order of byte strings: a proper prefix comes first, otherwise the first
    difference decides *)
Inductive bytes_lt : gostr -> gostr -> Prop :=
  | bl_prefix s c t : bytes_lt s (s ++ c :: t)
  | bl_here s a b t u : (N_of_ascii a < N_of_ascii b)%N -> bytes_lt (s ++ a :: t) (s ++ b :: u).

(** ** Drawings of trees *)

(** A tree is written as a list of labels with depths, parents before their
    children.  [goes_on j rest]: another item of depth j comes before any
    shallower one. *)
Fixpoint goes_on (j : nat) (rest : list (nat * gostr)) : bool :=
  match rest with
  | [] => false
  | (d, _) :: rest' => if d =? j then true else if d <? j then false else goes_on j rest'
  end.

(** Each item gets a line: for each outer level a bar if there are more items on
    that level, then a tee or (for the last of its siblings) a corner, and its
    label. *)
Fixpoint drawing (items : list (nat * gostr)) : gostr :=
  match items with
  | [] => []
  | (d, label) :: rest =>
      concat (map (fun j => if goes_on j rest then L "│   " else L "    ") (seq 0 d)) ++
      (if goes_on d rest then L "├──" else L "└──") ++ L " " ++ label ++ ["010"%char] ++
      drawing rest
  end.

(** The same up to the choice between bar and blank and between tee and corner. *)
Definition sketch (item : nat * gostr) (line : gostr) : Prop :=
  exists cells knee, length cells = fst item /\
    Forall (fun c => c = L "│   " \/ c = L "    ") cells /\ (knee = L "├──" \/ knee = L "└──") /\
    line = concat cells ++ knee ++ L " " ++ snd item.

(** Reading such a list from top to bottom: an item of depth d stands below the
    latest items of the smaller depths, so its path are their labels and its own.
    Items that carry a number end a path. *)
Fixpoint reading (stack : list gostr) (items : list (nat * gostr * option nat))
  : list (list gostr * option nat) :=
  match items with
  | [] => []
  | (d, label, o) :: rest =>
      let path := take d stack ++ [label] in (path, o) :: reading path rest
  end.

(** the text of such an item *)
Definition item_text (item : nat * gostr * option nat) (t : nat * gostr) : Prop :=
  let '(d, label, o) := item in
  fst t = d /\
  match o with
  | None => snd t = label
  | Some n => exists nt, filled_left 3 (number n) nt /\ snd t = label ++ L " [" ++ nt ++ L "]"
  end.

Section Spec.
Context {A : Type}.
Implicit Types h : list (ev A).

(** the routes below the root r that were added for a method *)
Definition routes_under h (r : nat) (m : gostr) (l : nat) : Prop :=
  is_route h l m /\ exists path, lineage h l (r :: path).

(** the number of handlers that run for the route l *)
Definition runs h (l n : nat) : Prop :=
  exists path, lineage h l path /\ n = length (chain h path l).

(** the same without the handlers given to Before on its root *)
Definition runs_after h (l n : nat) : Prop :=
  exists r path, lineage h l (r :: path) /\ n + length (befores h r) = length (chain h (r :: path) l).

(** its URI *)
Definition has_uri h (l : nat) (u : gostr) : Prop :=
  exists path, lineage h l path /\ u = full_uri h path.

(** its line in the list of all routes *)
Definition all_line h (l : nat) (t : gostr) : Prop :=
  exists m mt n u, is_route h l m /\ filled_right 7 m mt /\ runs h l n /\ has_uri h l u /\
    t = L "[" ++ mt ++ L " : " ++ number n ++ L "] " ++ u.

(** its line in the list of the routes of a method *)
Definition method_line h (l : nat) (t : gostr) : Prop :=
  exists n nt u, runs h l n /\ filled_left 3 (number n) nt /\ has_uri h l u /\
    t = L "[" ++ nt ++ L "] " ++ u.

(** parents before children, otherwise in the order of registration *)
Definition outline_lt h (x y : nat) : Prop :=
  exists p q, lineage h x p /\ lineage h y q /\ (proper_prefix p q \/ lex p q).

(** the item of a group or route below the root r; [count] relates a route to the
    number shown for it *)
Definition outline_item h (r : nat) (count : nat -> nat -> Prop) (x : nat) (item : nat * gostr) : Prop :=
  exists path, lineage h x (r :: path) /\ S (fst item) = length path /\
    ((exists p pat, creations h !! x = Some (EGroup p pat) /\ snd item = pat) \/
     (exists p m pat hs mt n, creations h !! x = Some (ERoute p m pat hs) /\ filled_right 7 m mt /\ count x n /\
        snd item = pat ++ L " [" ++ mt ++ L " : " ++ number n ++ L "]")).

(** The segments of the route l as the release tree has them, that is after
    rewriting of : and * segments. *)
Definition has_segs h (l : nat) (segs : list gostr) : Prop :=
  exists path, lineage h l path /\ uri_segs (_VariantUri (full_uri h path)) = segs.

(** the first route of a method with given segments, and the number of handlers
    that run for it *)
Definition first_route h (r : nat) (m : gostr) (segs : list gostr) (n : nat) : Prop :=
  exists l path, routes_under h r m l /\ has_segs h l segs /\ runs h l n /\ lineage h l path /\
    forall l' path', routes_under h r m l' -> has_segs h l' segs -> lineage h l' path' -> ~ lex path' path.

(** everything below the root r *)
Definition outline h (r : nat) (ns : list nat) : Prop :=
  (forall x, x ∈ ns <-> exists path, path <> [] /\ lineage h x (r :: path)) /\
  StronglySorted (outline_lt h) ns.

End Spec.
