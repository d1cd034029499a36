(** What a client's steps with slices are as calls with values. *)
From Verif Require Import Base GoStr Strconv Pattern Tree Router RouterTry Slices.

Section Spec.
Context {A : Type}.
Variable spare : nat -> nat -> nat.
Local Notation sexec := (sexec spare).
Local Notation sbefores := (sbefores spare).

(** The call with the elements that the slice has when the call is made; steps
    that only touch the client's own slices are no calls. *)
Fixpoint seen (t : sop A) (st : sstate A) {struct t} : list (top A) :=
  match t with
  | SNew => [TNew]
  | SBefore r s => if client_slice (st_i st) s then [TBefore r (sread (st_i st) s)] else []
  | SUse r s => if client_slice (st_i st) s then [TUse r (sread (st_i st) s)] else []
  | SHandle r m p s => if client_slice (st_i st) s then [THandle r m p (sread (st_i st) s)] else []
  | SAny r excl p s => if client_slice (st_i st) s then [TAny r excl p (sread (st_i st) s)] else []
  | SGroup r p args =>
      [TGroup r p
         ((fix go (args : list (sgarg A)) (st : sstate A) {struct args} : list (targ A) :=
             match args with
             | [] => []
             | SMw a :: args' => TMw a :: go args' (sbefores st r [IFuncCtx a])
             | SSub ts :: args' =>
                 TSub ((fix run (ts : list (sop A)) (st : sstate A) {struct ts} : list (top A) :=
                          match ts with
                          | [] => []
                          | t :: ts' => seen t st ++ run ts' (sexec t st).1
                          end) ts st) ::
                 go args'
                   ((fix run (ts : list (sop A)) (st : sstate A) {struct ts} : sstate A :=
                       match ts with
                       | [] => st
                       | t :: ts' => run ts' (sexec t st).1
                       end) ts st)
             | SOther :: args' => TOther :: go args' st
             end) args
            (match st_rs st !! r with
             | Some x => sadd spare st r x (mkSR [] p s_nil s_nil s_nil (Some r) s_nil false)
             | None => st
             end))]
  | STry t => map TTry (seen t st)
  | SMake _ | SPut _ _ _ => []
  end.
Fixpoint seen_list (ts : list (sop A)) (st : sstate A) : list (top A) :=
  match ts with
  | [] => []
  | t :: ts' => seen t st ++ seen_list ts' (sexec t st).1
  end.

(** A client's program: registration steps and Handler() calls.  It goes on after
    panics; one that does not is a prefix of such a program. *)
Inductive sact :=
  | ADo (t : sop A)
  | AHandler (r : nat) (opts : list sopt).
Definition opt_okb (st : sstate A) (f : sopt) : bool :=
  match f with SWithNoFoundHandlers s => client_slice (st_i st) s | _ => true end.
Definition act (st : sstate A) (a : sact) : sstate A :=
  match a with
  | ADo t => (sexec t st).1
  | AHandler r opts =>
      if forallb (opt_okb st) opts
      then match sHandler spare st r opts with Ok (st', _) => st' | _ => st end
      else st
  end.
Definition acts (l : list sact) (st : sstate A) : sstate A := fold_left act l st.
(** the registration calls of a program, with the values seen *)
Fixpoint calls (l : list sact) (st : sstate A) : list (top A) :=
  match l with
  | [] => []
  | a :: l' => match a with ADo t => map TTry (seen t st) | AHandler _ _ => [] end ++ calls l' (act st a)
  end.

(** a router without the handlers of its route *)
Definition bare (x : router A) : router A :=
  mkRouter (r_method x) (r_pattern x) (r_gbefores x) (r_befores x) [] (r_parent x) (r_sub x) (r_leaf x).

(** whether a step contains a write to the cell by the client *)
Fixpoint writes (arr i : nat) (t : sop A) {struct t} : bool :=
  match t with
  | SGroup _ _ args =>
      (fix go (args : list (sgarg A)) : bool :=
         match args with
         | [] => false
         | SSub ts :: args' =>
             (fix run (ts : list (sop A)) : bool :=
                match ts with [] => false | t :: ts' => writes arr i t || run ts' end) ts || go args'
         | _ :: args' => go args'
         end) args
  | STry t => writes arr i t
  | SPut arr' i' _ => (arr' =? arr) && (i' =? i)
  | _ => false
  end.
Definition act_writes (arr i : nat) (a : sact) : bool := match a with ADo t => writes arr i t | AHandler _ _ => false end.
(** a cell of an array made by the client *)
Definition cell (st : sstate A) (arr i : nat) : option (ival A) :=
  match st_i st !! arr with
  | Some a => if a_client a then a_cells a !! i else None
  | None => None
  end.
End Spec.
Arguments sact : clear implicits.
