(** Specification of routing: what a route pattern accepts, which route must
    win, and what it binds.  Nothing here refers to the tree. *)
From Verif Require Import Base GoStr Strconv Pattern Tree.

(** ** Segments *)

(** The segments of a request path: one leading and one trailing slash are
    ignored, the rest is cut at every slash. *)
Definition path_segs (path : gostr) : list gostr :=
  split_byte "/" (trim_suffix (L "/") (trim_prefix (L "/") path)).

(** The segments of a route URI.  A trailing slash is ignored.  In front of each
    segment one empty segment is skipped: the leading slash disappears, and a
    doubled slash counts as one. *)
Fixpoint skip_empty (l : list gostr) : list gostr :=
  match l with
  | [] => []
  | [x] => [x]
  | [] :: (y :: r) => match r with [] => [y] | _ => y :: skip_empty r end
  | x :: ((_ :: _) as r) => x :: skip_empty r
  end.
Definition uri_segs (u : gostr) : list gostr :=
  skip_empty (split_byte "/" (trim_suffix (L "/") u)).

Section Spec.
Variable re_ok : gostr -> bool.
Variable re_find : gostr -> gostr -> option (list gostr).

(** the analysed segments of a URI *)
Definition uri_route (u : gostr) (r : list pat) : Prop :=
  Forall2 (fun s p => analyzePattern re_ok s = Ok p) (uri_segs u) r.

(** ** Acceptance *)

(** the groups captured by a regexp segment, one per name *)
Definition captures (p : pat) (s : gostr) (groups : list gostr) : Prop :=
  exists reg whole, p_reg p = Some reg /\ re_find reg s = Some (whole :: groups) /\
                    length groups = length (p_wild p).

(** one pattern accepts one segment *)
Definition seg_accepts (p : pat) (s : gostr) : Prop :=
  match p_typ p with
  | PStatic => s = p_raw p
  | PRegexp => exists groups, captures p s groups
  | PHolder => True
  | PMatchAll => True
  end.

(** a route accepts a path: segment by segment, a final catch-all also taking
    all that remains *)
Inductive route_accepts : list pat -> list gostr -> Prop :=
  | accepts_last p s : seg_accepts p s -> route_accepts [p] [s]
  | accepts_rest p s ss :
      p_typ p = PMatchAll -> ss <> [] -> route_accepts [p] (s :: ss)
  | accepts_next p r s ss :
      seg_accepts p s -> route_accepts r ss -> route_accepts (p :: r) (s :: ss).

(** ** Priority *)

(** [a] is a proper prefix of [r] *)
Definition proper_prefix {A} (a r : list A) : Prop := exists x t, r = a ++ x :: t.

(** the first route of the table going through [a] comes before any going
    through [b] *)
Definition opened_before (tbl : list (list pat)) (a b : list pat) : Prop :=
  exists l1 r l2, tbl = l1 ++ r :: l2 /\ proper_prefix a r /\
                  forall r', r' ∈ l1 -> ~ proper_prefix b r'.

(** the first occurrence of route [a] comes before any of route [b] *)
Definition listed_before (tbl : list (list pat)) (a b : list pat) : Prop :=
  exists l1 l2, tbl = l1 ++ a :: l2 /\ b ∉ l1.

Definition kind_rank (t : ptype) : nat :=
  match t with PStatic => 0 | PRegexp => 1 | PHolder => 2 | PMatchAll => 3 end.
Definition kind_lt (p q : pat) : Prop := kind_rank (p_typ p) < kind_rank (p_typ q).

(** [beats tbl n r1 r2]: for a request of n segments route r1 has priority over
    route r2.  [c] is the common beginning, p1 and p2 the segments at which the
    routes part. *)
Inductive beats (tbl : list (list pat)) (n : nat) : list pat -> list pat -> Prop :=
  | beats_inner_kind c p1 t1 p2 t2 :
      t1 <> [] -> t2 <> [] -> kind_lt p1 p2 ->
      beats tbl n (c ++ p1 :: t1) (c ++ p2 :: t2)
  | beats_inner_order c p1 t1 p2 t2 :
      t1 <> [] -> t2 <> [] -> p1 <> p2 -> p_typ p1 = p_typ p2 ->
      opened_before tbl (c ++ [p1]) (c ++ [p2]) ->
      beats tbl n (c ++ p1 :: t1) (c ++ p2 :: t2)
  | beats_last_kind c p1 p2 :
      length c + 1 = n -> kind_lt p1 p2 -> beats tbl n (c ++ [p1]) (c ++ [p2])
  | beats_last_order c p1 p2 :
      length c + 1 = n -> p1 <> p2 -> p_typ p1 = p_typ p2 ->
      listed_before tbl (c ++ [p1]) (c ++ [p2]) ->
      beats tbl n (c ++ [p1]) (c ++ [p2])
  | beats_catch_all c p1 p2 :
      (* two catch-alls taking several segments: here the later one wins *)
      length c + 1 < n -> p1 <> p2 -> p_typ p1 = PMatchAll -> p_typ p2 = PMatchAll ->
      listed_before tbl (c ++ [p2]) (c ++ [p1]) ->
      beats tbl n (c ++ [p1]) (c ++ [p2])
  | beats_longer c p1 t1 p2 :
      (* a route that goes on beats a catch-all ending at that point *)
      length c + 1 < n -> t1 <> [] -> p_typ p2 = PMatchAll ->
      beats tbl n (c ++ p1 :: t1) (c ++ [p2]).

(** ** Parameters *)

(** the name of a catch-all that was given none: "*0", "*1", ... *)
Definition star_name (g : nat) : gostr := "*"%char :: itoa_nat g.
(** the names a final catch-all / a holder binds *)
Definition glob_binds (p : pat) (g : nat) (v : gostr) : list (gostr * gostr) :=
  if decide (p_parsed p = []) then [(star_name g, v)]
  else if decide (p_parsed p = L "_") then [] else [(p_parsed p, v)].
Definition holder_binds (p : pat) (v : gostr) : list (gostr * gostr) :=
  if decide (p_parsed p = L "_") then [] else [(p_parsed p, v)].
Definition regexp_binds (p : pat) (s : gostr) : list (gostr * gostr) :=
  match p_reg p with
  | Some reg => match re_find reg s with
                | Some (_ :: groups) => reverse (zip (p_wild p) groups)
                | _ => []
                end
  | None => []
  end.

(** The bindings of a route for a path; where a name occurs twice the earlier
    entry of the list counts.  [g] is the number of catch-alls passed so far. *)
Fixpoint route_binds (g : nat) (r : list pat) (ss : list gostr) : list (gostr * gostr) :=
  match r, ss with
  | [p], s :: _ =>
      match p_typ p with
      | PStatic => []
      | PRegexp => regexp_binds p s
      | PHolder => holder_binds p s
      | PMatchAll => glob_binds p g (join (L "/") ss)
      end
  | p :: r', s :: ss' =>
      match p_typ p with
      | PStatic => route_binds g r' ss'
      | PRegexp => route_binds g r' ss' ++ regexp_binds p s
      | PHolder => holder_binds p s ++ route_binds g r' ss'
      | PMatchAll =>
          (if decide (p_parsed p = []) then [(star_name g, s)]
           else glob_binds p g (join (L "/") ss)) ++ route_binds (S g) r' ss'
      end
  | _, _ => []
  end.

(** *** The same, read position by position *)

(** number of catch-alls in a list of segments *)
Fixpoint globs (c : list pat) : nat :=
  match c with
  | [] => 0
  | p :: c' => match p_typ p with PMatchAll => S (globs c') | _ => globs c' end
  end.

(** What the segment p binds itself.  [ss] is the path from its own segment on,
    [g] the number of catch-alls before it, [last] whether it ends the route. *)
Definition own_bind (g : nat) (p : pat) (last : bool) (ss : list gostr) (k v : gostr) : Prop :=
  match p_typ p with
  | PStatic => False
  | PRegexp => exists s groups, head ss = Some s /\ captures p s groups /\
                                (k, v) ∈ zip (p_wild p) groups
  | PHolder => p_parsed p <> L "_" /\ k = p_parsed p /\ head ss = Some v
  | PMatchAll =>
      if decide (p_parsed p = []) then
        k = star_name g /\ (if last then v = join (L "/") ss else head ss = Some v)
      else p_parsed p <> L "_" /\ k = p_parsed p /\ v = join (L "/") ss
  end.

(** (k, v) is bound by some segment of route r on path ss *)
Definition bound_by (g : nat) (r : list pat) (ss : list gostr) (k v : gostr) : Prop :=
  exists c p t, r = c ++ p :: t /\
    own_bind (g + globs c) p (bool_decide (t = [])) (drop (length c) ss) k v.

(** the names a route binds *)
Fixpoint route_names (g : nat) (r : list pat) : list gostr :=
  match r with
  | [] => []
  | p :: r' =>
      match p_typ p with
      | PStatic => route_names g r'
      | PRegexp => p_wild p ++ route_names g r'
      | PHolder => (if decide (p_parsed p = L "_") then [] else [p_parsed p]) ++ route_names g r'
      | PMatchAll =>
          (if decide (p_parsed p = []) then [star_name g]
           else if decide (p_parsed p = L "_") then [] else [p_parsed p]) ++ route_names (S g) r'
      end
  end.

(** A binding left behind by a regexp segment that is not the last of its route,
    that matched, and through which the chosen route [win] does not go. *)
Definition left_behind (tbl : list (list pat)) (ss : list gostr) (win : list pat)
    (k v : gostr) : Prop :=
  exists c q t s groups,
    c ++ q :: t ∈ tbl /\ t <> [] /\ p_typ q = PRegexp /\
    ss !! length c = Some s /\ Forall2 seg_accepts c (take (length c) ss) /\
    captures q s groups /\ (k, v) ∈ zip (p_wild q) groups /\
    ~ (exists t', win = (c ++ [q]) ++ t').

(** no route with a regexp segment that is not its last: nothing is left behind *)
Definition no_inner_regexp (tbl : list (list pat)) : Prop :=
  forall r c p t, r ∈ tbl -> r = c ++ p :: t -> t <> [] -> p_typ p <> PRegexp.

End Spec.

(** ** Building a tree from a list of routes (URI, handlers) *)
Section Adds.
Context {H : Type}.
Variable re_ok : gostr -> bool.

(** engine.go:159-180, restricted to one method: add the routes one after the
    other to an empty tree.  The identity of a new leaf is the position of its
    route in the list. *)
Fixpoint adds_from (n : node H) (i : nat) (us : list (gostr * list H)) : res (node H) :=
  match us with
  | [] => Ok n
  | (u, hs) :: us' =>
      let! (n', _, _) := add re_ok n u i hs in adds_from n' (S i) us'
  end.
Definition adds (us : list (gostr * list H)) : res (node H) := adds_from newTree 0 us.

(** the analysed routes of a list of routes *)
Definition routes_of (us : list (gostr * list H)) (tbl : list (list pat)) : Prop :=
  Forall2 (fun u r => uri_route re_ok (fst u) r) us tbl.
End Adds.
