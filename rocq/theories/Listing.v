(** The listings of routes: router_print.go.  What is written to standard output
    is the result; write errors are not modelled. *)
From Verif Require Import Base GoStr Strconv Pattern Tree Router.

(** strings.Replace(s, old, new, -1) for a non-empty old *)
Definition replace_all (old new s : gostr) : gostr := join new (split_str old s).

(** ** Format verbs of package fmt *)
(** %-7s.  Simplification: fmt counts runes; the only arguments are the names of
    methods, which are ASCII. *)
Definition fmt_left (w : nat) (s : gostr) : gostr := s ++ replicate (w - length s) " "%char.
(** %3d *)
Definition fmt_int (w : nat) (n : nat) : gostr :=
  replicate (w - length (itoa_nat n)) " "%char ++ itoa_nat n.
Definition newline : gostr := ["010"%char].

(** ** router_print.go:9-14, in UTF-8 *)
Definition _PREFIX_BRANCH : gostr := L "├──".
Definition _PREFIX_TRUNK : gostr := L "│   ".
Definition _PREFIX_LEAF : gostr := L "└──".
Definition _PREFIX_EMP : gostr := L "    ".

(** router_print.go:58, 72, 94, 109 *)
Definition no_route : gostr := L "no route" ++ newline.

(** util.go:87-95 checkMethod.  Simplification: strings.ToUpper maps ASCII
    letters only (GoStr.to_upper). *)
Definition checkMethod (method : gostr) : res (gostr * nat) :=
  let method := to_upper method in
  match MethodIndex method with
  | None => Panic (L "unsupport method: " ++ method)
  | Some i => Ok (method, i)
  end.

Section Listing.
Context {A : Type}.
Implicit Types hp : heap A.
Implicit Types e : engine A.

(** ** The routers as registered *)

(** router_print.go:25-31 countHandlersForRawRouter.  [fuel] bounds the climb. *)
Fixpoint countHandlersForRawRouter (fuel : nat) hp (r : nat) : res nat :=
  match fuel with
  | O => Diverge
  | S fuel =>
      match hp !! r with
      | None => Panic (L "nil pointer dereference")
      | Some x =>
          match r_parent x with
          | Some p =>
              let! n := countHandlersForRawRouter fuel hp p in
              Ok (length (r_befores x) + length (r_handlers x) + n)
          | None => Ok (length (r_befores x) + length (r_handlers x))
          end
      end
  end.

(** router_print.go:16-22 *)
Definition printRawRoute (prefix : gostr) hp (r : nat) : res gostr :=
  match hp !! r with
  | None => Panic (L "nil pointer dereference")
  | Some x =>
      if seqb (r_method x) [] then Ok (prefix ++ L " " ++ r_pattern x ++ newline)
      else
        let! n := countHandlersForRawRouter (S (length hp)) hp r in
        Ok (prefix ++ L " " ++ r_pattern x ++ L " [" ++ fmt_left 7 (r_method x) ++ L " : " ++
            itoa_nat n ++ L "]" ++ newline)
  end.

(** router_print.go:33-53.  [fuel] bounds the depth; PrintRawRouter supplies
    enough because sub routers are younger than their parents. *)
Fixpoint printRawRouter (fuel : nat) hp (nodes : list nat) (prefix : gostr) : res gostr :=
  match fuel with
  | O => Diverge
  | S fuel =>
      let prefix := if negb (seqb prefix []) then replace_all _PREFIX_LEAF _PREFIX_EMP prefix else prefix in
      (fix go (l : list nat) : res gostr :=
         match l with
         | [] => Ok []
         | v :: l' =>
             let last := match l' with [] => true | _ => false end in
             let! line := printRawRoute (prefix ++ (if last then _PREFIX_LEAF else _PREFIX_BRANCH)) hp v in
             match hp !! v with
             | None => Panic (L "nil pointer dereference")
             | Some x =>
                 let! below :=
                   match r_sub x with
                   | [] => Ok []
                   | _ => printRawRouter fuel hp (r_sub x)
                            (prefix ++ (if last then _PREFIX_LEAF else _PREFIX_TRUNK))
                   end in
                 let! rest := go l' in
                 Ok (line ++ below ++ rest)
             end
         end) nodes
  end.

(** router_print.go:56-63, on the routers as they are at the time of the call *)
Definition PrintRawRouter hp e : res gostr :=
  match hp !! en_root e with
  | None => Ok no_route
  | Some x => printRawRouter (S (length hp)) hp (r_sub x) []
  end.

(** ** The routes of the engine *)

(** the order of Go strings *)
Fixpoint str_ltb (a b : gostr) : bool :=
  match a, b with
  | [], [] => false
  | [], _ :: _ => true
  | _ :: _, [] => false
  | x :: a', y :: b' =>
      if (byte_of x <? byte_of y)%N then true
      else if (byte_of y <? byte_of x)%N then false
      else str_ltb a' b'
  end.
(** sort.Strings; modelled as an insertion sort, which gives the same list
    because equal strings cannot be told apart *)
Fixpoint insert_str (x : gostr) (l : list gostr) : list gostr :=
  match l with
  | [] => [x]
  | y :: l' => if str_ltb y x then y :: insert_str x l' else x :: l
  end.
Fixpoint sort_strings (l : list gostr) : list gostr :=
  match l with
  | [] => []
  | x :: l' => insert_str x (sort_strings l')
  end.

(** router_print.go:68-88.  The keys of routeMap[method] are visited in the order
    of map_to_list; they are sorted afterwards. *)
Definition PrintRawRoutes e (method : gostr) : res gostr :=
  let! (method, _) := checkMethod method in
  let list :=
    omap (fun kv => if seqb (fst (fst kv)) method then Some (snd (fst kv)) else None)
         (map_to_list (rs_map (en_store e))) in
  match list with
  | [] => Ok no_route
  | _ =>
      Ok (concat (map (fun v =>
            match rs_map (en_store e) !! (method, v) with
            | Some rt => L "[" ++ fmt_int 3 (length (rt_handlers rt)) ++ L "] " ++ v ++ newline
            | None => []
            end) (sort_strings list)))
  end.

(** router_print.go:92-102 *)
Definition PrintRawAllRoutes e : gostr :=
  match rs_slice (en_store e) with
  | [] => no_route
  | l => concat (map (fun v => L "[" ++ fmt_left 7 (rt_method v) ++ L " : " ++
                               itoa_nat (length (rt_handlers v)) ++ L "] " ++ rt_uri v ++ newline) l)
  end.

(** ** The trees of the engine *)
Implicit Types n : node (handler A).

(** router_print.go:125-131 printNode, for a leaf and for an inner node *)
Definition print_leaf (prefix : gostr) (v : enode (handler A)) : gostr :=
  prefix ++ L " " ++ p_raw (e_pat v) ++ L " [" ++ fmt_int 3 (length (e_handlers v)) ++ L "]" ++ newline.
Definition print_inner (prefix : gostr) n : gostr :=
  prefix ++ L " " ++ p_raw (n_pat n) ++ newline.

(** router_print.go:154-164, the second loop of printTreeNode; [root] tells
    whether node.parent == nil *)
Fixpoint print_ends (root : bool) (prefix : gostr) (l : list (enode (handler A))) : gostr :=
  match l with
  | [] => []
  | v :: l' =>
      let last := match l' with [] => true | _ => false end in
      (if root && seqb (p_raw (e_pat v)) [] then []
       else print_leaf (prefix ++ (if last then _PREFIX_LEAF else _PREFIX_BRANCH)) v) ++
      print_ends root prefix l'
  end.

(** router_print.go:133-165 *)
Fixpoint printTreeNode (root : bool) n (prefix : gostr) {struct n} : gostr :=
  let '(Node _ subs ends) := n in
  let prefix := if negb (seqb prefix []) then replace_all _PREFIX_LEAF _PREFIX_EMP prefix else prefix in
  (fix go (l : list (node (handler A))) : gostr :=
     match l with
     | [] => []
     | s :: l' =>
         match l' with
         | [] =>
             if 0 <? length ends then
               print_inner (prefix ++ _PREFIX_BRANCH) s ++ printTreeNode false s (prefix ++ _PREFIX_TRUNK)
             else
               print_inner (prefix ++ _PREFIX_LEAF) s ++ printTreeNode false s (prefix ++ _PREFIX_EMP)
         | _ =>
             print_inner (prefix ++ _PREFIX_BRANCH) s ++ printTreeNode false s (prefix ++ _PREFIX_TRUNK)
         end ++ go l'
     end) subs ++
  print_ends root prefix ends.

(** router_print.go:106-123 *)
Definition PrintRouterTree e (method : gostr) : res gostr :=
  let! (_, idx) := checkMethod method in
  match en_routers e !! idx with
  | None => Panic (L "runtime error: index out of range")
  | Some m =>
      match m_tree m with
      | None => Ok no_route
      | Some root =>
          Ok (concat (map (fun v => if seqb (p_raw (e_pat v)) [] then
                                      L "/ [" ++ fmt_int 3 (length (e_handlers v)) ++ L "]" ++ newline
                                    else []) (n_ends root)) ++
              printTreeNode true root [])
      end
  end.

End Listing.
