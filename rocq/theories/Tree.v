(** The route tree: tree.go lines 17-53 and 142-330. *)
From Verif Require Import Base GoStr Strconv Pattern.

(** params.go:7 *)
Notation Params := (gmap gostr gostr).

Section Tree.
(** the type of handlers *)
Context {H : Type}.

(** A leaf of the tree (an element of some node.endNodes).  [e_id] is the
    identity of the Go object (its address); leaves are compared by it. *)
Record enode := mkEnd { e_pat : pat; e_id : nat; e_handlers : list H }.

(** tree.go:17-31, an inner node.  The parent pointer is not stored: it is only
    followed by isStaticRoute (engine.go:183-193), which the model evaluates on
    the kinds along the path from the root returned by [add]. *)
Inductive node := Node (n_pat : pat) (n_subs : list node) (n_ends : list enode).
Definition n_pat (n : node) : pat := let '(Node p _ _) := n in p.
Definition n_subs (n : node) : list node := let '(Node _ s _) := n in s.
Definition n_ends (n : node) : list enode := let '(Node _ _ e) := n in e.

(** regexp.Compile succeeds / Regexp.FindStringSubmatch (None: nil result) *)
Variable re_ok : gostr -> bool.
Variable re_find : gostr -> gostr -> option (list gostr).

(** tree.go:38-40 newTree: newNode(nil, ""), whose kind is static. *)
Definition root_pat : pat := mkPat PStatic [] [] [] None.
Definition newTree : node := Node root_pat [] [].

(** tree.go:170-181 and 195-206: insert before the first element of greater kind. *)
Fixpoint insert_by_typ {A} (typ : A -> ptype) (x : A) (l : list A) : list A :=
  match l with
  | [] => [x]
  | y :: l' => if ptype_ltb (typ x) (typ y) then x :: l else y :: insert_by_typ typ x l'
  end.

(** tree.go:161-165 / 187-191: the first child with that pattern text, with the
    children before and after it. *)
Fixpoint find_split {A} (f : A -> bool) (l : list A) : option (list A * A * list A) :=
  match l with
  | [] => None
  | x :: l' =>
      if f x then Some ([], x, l')
      else match find_split f l' with
           | Some (a, y, b) => Some (x :: a, y, b)
           | None => None
           end
  end.

Definition e_typ (e : enode) : ptype := p_typ (e_pat e).
Definition n_typ (n : node) : ptype := p_typ (n_pat n).

(** tree.go:160-184 addEndNode.  Result: the changed node, the leaf returned,
    and the kinds on the path from the node (exclusive) to the leaf. *)
Definition addEndNode (n : node) (pattern : gostr) (id : nat) (hs : list H)
  : res (node * enode * list ptype) :=
  match find_split (fun e => seqb (p_raw (e_pat e)) pattern) (n_ends n) with
  | Some (_, e, _) => Ok (n, e, [e_typ e])
  | None =>
      let! p := analyzePattern re_ok pattern in
      let e := mkEnd p id hs in
      Ok (Node (n_pat n) (n_subs n) (insert_by_typ e_typ e (n_ends n)), e, [e_typ e])
  end.

(** tree.go:149-158 addNextSegment, with addSubNode (tree.go:186-209) inlined.
    [fuel] bounds the number of segments; [add] supplies enough. *)
Fixpoint addNextSegment (fuel : nat) (n : node) (pattern : gostr) (id : nat) (hs : list H)
  : res (node * enode * list ptype) :=
  match fuel with
  | O => Diverge
  | S fuel =>
      let pattern := trim_prefix (L "/") pattern in
      match index_byte "/" pattern with
      | None => addEndNode n pattern id hs
      | Some i =>
          let segment := take i pattern in
          let rest := drop (S i) pattern in
          match find_split (fun s => seqb (p_raw (n_pat s)) segment) (n_subs n) with
          | Some (l1, s, l2) =>
              let! (s', e, ts) := addNextSegment fuel s rest id hs in
              Ok (Node (n_pat n) (l1 ++ s' :: l2) (n_ends n), e, n_typ s :: ts)
          | None =>
              let! p := analyzePattern re_ok segment in
              let! (s', e, ts) := addNextSegment fuel (Node p [] []) rest id hs in
              Ok (Node (n_pat n) (insert_by_typ n_typ s' (n_subs n)) (n_ends n), e, p_typ p :: ts)
          end
      end
  end.

(** tree.go:144-147 add.  The list of kinds includes the root's. *)
Definition add (n : node) (pattern : gostr) (id : nat) (hs : list H)
  : res (node * enode * list ptype) :=
  let pattern := trim_suffix (L "/") pattern in
  let! (n', e, ts) := addNextSegment (S (length pattern)) n pattern id hs in
  Ok (n', e, n_typ n :: ts).

(** engine.go:183-193 isStaticRoute, on the kinds from the root to the leaf. *)
Definition isStaticRoute (path : list ptype) : bool :=
  forallb (fun t => match t with PStatic => true | _ => false end) path.

(** the key "*"+strconv.Itoa(globLevel) *)
Definition glob_key (g : nat) : gostr := "*"%char :: itoa_nat g.

(** tree.go:248-250 / 288-290: params[wildcards[j]] = results[j+1] for all j.
    The lengths agree when it is called. *)
Fixpoint set_all (names vals : list gostr) (ps : Params) : Params :=
  match names, vals with
  | n :: names', v :: vals' => set_all names' vals' (<[n := v]> ps)
  | _, _ => ps
  end.

(** tree.go:242-246 / 283-286: the groups, if their number is the number of names. *)
Definition regexp_groups (p : pat) (s : gostr) : option (list gostr) :=
  match p_reg p with
  | None => None
  | Some reg =>
      match re_find reg s with
      | None => None
      | Some [] => None
      | Some (_ :: groups) =>
          if length groups =? length (p_wild p) then Some groups else None
      end
  end.

(** tree.go:258-264 / 318-324: the parameter of a final catch-all. *)
Definition bind_glob_end (p : pat) (g : nat) (v : gostr) (ps : Params) : Params :=
  if negb (seqb (p_parsed p) []) then
    if negb (seqb (p_parsed p) (L "_")) then <[p_parsed p := v]> ps else ps
  else <[glob_key g := v]> ps.

(** tree.go:253-255 / 296-298: the parameter of a holder. *)
Definition bind_holder (p : pat) (v : gostr) (ps : Params) : Params :=
  if negb (seqb (p_parsed p) (L "_")) then <[p_parsed p := v]> ps else ps.

(** tree.go:303-309: the parameter of an inner catch-all. *)
Definition bind_glob_sub (p : pat) (g : nat) (segment uri : gostr) (ps : Params) : Params :=
  if negb (seqb (p_parsed p) []) then
    if negb (seqb (p_parsed p) (L "_")) then <[p_parsed p := segment ++ L "/" ++ uri]> ps else ps
  else <[glob_key g := segment]> ps.

(** tree.go:234-271 matchEndNode *)
Fixpoint matchEndNode (ends : list enode) (g : nat) (uri : gostr) (ps : Params)
  : option enode * Params :=
  match ends with
  | [] => (None, ps)
  | e :: ends' =>
      let p := e_pat e in
      match p_typ p with
      | PStatic => if seqb (p_raw p) uri then (Some e, ps) else matchEndNode ends' g uri ps
      | PRegexp =>
          match regexp_groups p uri with
          | None => matchEndNode ends' g uri ps
          | Some groups => (Some e, set_all (p_wild p) groups ps)
          end
      | PHolder => (Some e, bind_holder p uri ps)
      | PMatchAll => (Some e, bind_glob_end p g uri ps)
      end
  end.

(** tree.go:315-329, after all sub-nodes failed: the last leaf, if a catch-all. *)
Definition matchTail (ends : list enode) (g : nat) (segment uri : gostr) (ps : Params)
  : option enode * Params :=
  match List.last (map Some ends) None with
  | None => (None, ps)
  | Some e =>
      match e_typ e with
      | PMatchAll => (Some e, bind_glob_end (e_pat e) g (segment ++ L "/" ++ uri) ps)
      | _ => (None, ps)
      end
  end.

(** tree.go:226-232 matchNextSegment, with matchSubNode (tree.go:273-330)
    inlined.  The map is threaded through, as the Go code mutates one map also
    in branches that fail. *)
Fixpoint matchNextSegment (n : node) (g : nat) (uri : gostr) (ps : Params) {struct n}
  : option enode * Params :=
  let '(Node _ subs ends) := n in
  match index_byte "/" uri with
  | None => matchEndNode ends g uri ps
  | Some i =>
      let segment := take i uri in
      let rest := drop (S i) uri in
      (fix loop (l : list node) (ps : Params) {struct l} : option enode * Params :=
         match l with
         | [] => matchTail ends g segment rest ps
         | s :: l' =>
             let p := n_pat s in
             match p_typ p with
             | PStatic =>
                 if seqb (p_raw p) segment then
                   match matchNextSegment s g rest ps with
                   | (Some e, ps') => (Some e, ps')
                   | (None, ps') => loop l' ps'
                   end
                 else loop l' ps
             | PRegexp =>
                 match regexp_groups p segment with
                 | None => loop l' ps
                 | Some groups =>
                     match matchNextSegment s g rest (set_all (p_wild p) groups ps) with
                     | (Some e, ps') => (Some e, ps')
                     | (None, ps') => loop l' ps'
                     end
                 end
             | PHolder =>
                 match matchNextSegment s g rest ps with
                 | (Some e, ps') => (Some e, bind_holder p segment ps')
                 | (None, ps') => loop l' ps'
                 end
             | PMatchAll =>
                 match matchNextSegment s (S g) rest ps with
                 | (Some e, ps') => (Some e, bind_glob_sub p g segment rest ps')
                 | (None, ps') => loop l' ps'
                 end
             end
         end) subs ps
  end.

(** tree.go:212-223 Match; a nil tree is None and gives nil Params (None). *)
Definition Match (n : option node) (uri : gostr) : option enode * option Params :=
  match n with
  | None => (None, None)
  | Some n =>
      let uri := trim_suffix (L "/") (trim_prefix (L "/") uri) in
      let '(e, ps) := matchNextSegment n 0 uri ∅ in
      (e, Some ps)
  end.

End Tree.
Arguments enode : clear implicits.
Arguments node : clear implicits.
