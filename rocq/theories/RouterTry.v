(** Registration by clients that recover from panics and go on: router.go, with the
    router objects as they are after a panic. *)
From Verif Require Import Base GoStr Strconv Pattern Tree Router.

Section Try.
Context {A : Type}.

(** A call made by a client, as Router.rop; TTry is a call inside a function that
    recovers from its panic. *)
Inductive top :=
  | TNew
  | TBefore (r : nat) (hs : list (ival A))
  | TUse (r : nat) (hs : list (ival A))
  | THandle (r : nat) (m : nat) (pattern : gostr) (hs : list (ival A))
  | TAny (r : nat) (excl : list gostr) (pattern : gostr) (hs : list (ival A))
  | TGroup (r : nat) (pattern : gostr) (args : list targ)
  | TTry (t : top)
with targ :=
  | TMw (a : A)
  | TSub (ts : list top)
  | TOther.

(** The objects after the call, and the panic that goes on *)
Local Notation after := (heap A * option gostr)%type.

(** a pointer held by a client; compare Router.deref *)
Definition tderef (hp : heap A) (r : nat) (k : router A -> after) : after :=
  match deref hp r with
  | Ok x => k x
  | Panic m => (hp, Some m)
  | Diverge => (hp, Some []) (* not a result of deref *)
  end.

(** router.go:121-127 *)
Definition tBefore (hp : heap A) (r : nat) (hs : list (ival A)) : after :=
  tderef hp r (fun x =>
    if negb (IsParent x) then (hp, Some (L "sub router not allowed: Before()"))
    else (alter (set_gbefores (fun l => l ++ hs)) r hp, None)).

(** router.go:151-153 *)
Definition tUse (hp : heap A) (r : nat) (hs : list (ival A)) : after :=
  tderef hp r (fun _ => (alter (set_befores (fun l => l ++ hs)) r hp, None)).

(** router.go:155-170: the handlers are checked before the route is made *)
Definition thandle (hp : heap A) (r : nat) (method pattern : gostr) (hs : list (ival A)) : after :=
  tderef hp r (fun _ =>
    if existsb is_nil hs then (hp, Some (L "handler err : find nil in handlers"))
    else (alter (set_sub (fun l => l ++ [length hp])) r hp ++ [mkRouter method pattern [] [] hs (Some r) [] true], None)).

(** router.go:176-186: routes made before a panic stay *)
Fixpoint tany (excl : list gostr) (ms : list gostr) (hp : heap A) (r : nat) (pattern : gostr) (hs : list (ival A)) : after :=
  match ms with
  | [] => (hp, None)
  | m :: ms' =>
      if existsb (seqb m) excl then tany excl ms' hp r pattern hs
      else match thandle hp r m pattern hs with
           | (hp, None) => tany excl ms' hp r pattern hs
           | stop => stop
           end
  end.

(** The last case but one is router.go:129-149 Group: the group is part of its
    parent before the arguments are looked at. *)
Fixpoint texec (t : top) (hp : heap A) {struct t} : after :=
  match t with
  | TNew => (NewRouter hp, None)
  | TBefore r hs => tBefore hp r hs
  | TUse r hs => tUse hp r hs
  | THandle r m pattern hs =>
      match _HTTP_METHODS_NAMES !! m with
      | Some name => thandle hp r name pattern hs
      | None => (hp, Some (L "no such method"))
      end
  | TAny r excl pattern hs => tany excl _HTTP_METHODS_NAMES hp r pattern hs
  | TGroup r pattern args =>
      tderef hp r (fun _ =>
        (fix go (args : list targ) (hp : heap A) {struct args} : after :=
           match args with
           | [] => (hp, None)
           | TMw a :: args' => go args' (alter (set_befores (fun l => l ++ [IFuncCtx a])) r hp)
           | TSub ts :: args' =>
               match (fix run (ts : list top) (hp : heap A) {struct ts} : after :=
                        match ts with
                        | [] => (hp, None)
                        | t :: ts' =>
                            match texec t hp with
                            | (hp, None) => run ts' hp
                            | stop => stop
                            end
                        end) ts hp with
               | (hp, None) => go args' hp
               | stop => stop
               end
           | TOther :: _ => (hp, Some (L "unsupported type"))
           end) args
          (alter (set_sub (fun l => l ++ [length hp])) r hp ++ [mkRouter [] pattern [] [] [] (Some r) [] false]))
  | TTry t => ((texec t hp).1, None)
  end.
(** a client's registration code *)
Fixpoint trun (ts : list top) (hp : heap A) : after :=
  match ts with
  | [] => (hp, None)
  | t :: ts' =>
      match texec t hp with
      | (hp, None) => trun ts' hp
      | stop => stop
      end
  end.

(** ** Specification: the calls that took effect *)

(** the calls other than Group *)
Definition call_of (t : top) : option (rop A) :=
  match t with
  | TNew => Some RNew
  | TBefore r hs => Some (RBefore r hs)
  | TUse r hs => Some (RUse r hs)
  | THandle r m p hs => Some (RHandle r m p hs)
  | TAny r excl p hs => Some (RAny r excl p hs)
  | TGroup _ _ _ | TTry _ => None
  end.

(** [took t hp l b hp']: on routers hp the client's call t amounts to the calls l, none
    of which panics; b tells whether it returns.  A refused call amounts to nothing,
    a Group call that panics to one with the arguments before the panic (and of the
    function that panicked the calls that took effect). *)
Inductive took : top -> heap A -> list (rop A) -> bool -> heap A -> Prop :=
  | took_call t o hp hp' : call_of t = Some o -> exec o hp = Ok hp' -> took t hp [o] true hp'
  | took_refused t o hp : call_of t = Some o -> is_panic (exec o hp) -> took t hp [] false hp
  | took_try t hp l b hp' : took t hp l b hp' -> took (TTry t) hp l true hp'
  | took_group r p args hp hp1 l b hp' : exec (RGroup r p []) hp = Ok hp1 -> took_args r args hp1 l b hp' ->
      took (TGroup r p args) hp [RGroup r p l] b hp'
  | took_no_group r p args hp : is_panic (exec (RGroup r p []) hp) -> took (TGroup r p args) hp [] false hp
with took_args : nat -> list targ -> heap A -> list (garg A) -> bool -> heap A -> Prop :=
  | took_args_nil r hp : took_args r [] hp [] true hp
  | took_args_mw r a args hp hp1 l b hp' : exec (RUse r [IFuncCtx a]) hp = Ok hp1 -> took_args r args hp1 l b hp' ->
      took_args r (TMw a :: args) hp (GMw a :: l) b hp'
  | took_args_sub r ts args hp l1 hp1 l b hp' : took_list ts hp l1 true hp1 -> took_args r args hp1 l b hp' ->
      took_args r (TSub ts :: args) hp (GSub l1 :: l) b hp'
  | took_args_stop r ts args hp l1 hp1 : took_list ts hp l1 false hp1 -> took_args r (TSub ts :: args) hp [GSub l1] false hp1
  | took_args_other r args hp : took_args r (TOther :: args) hp [] false hp
with took_list : list top -> heap A -> list (rop A) -> bool -> heap A -> Prop :=
  | took_nil hp : took_list [] hp [] true hp
  | took_cons t ts hp l1 hp1 l2 b hp' : took t hp l1 true hp1 -> took_list ts hp1 l2 b hp' -> took_list (t :: ts) hp (l1 ++ l2) b hp'
  | took_stop t ts hp l1 hp1 : took t hp l1 false hp1 -> took_list (t :: ts) hp l1 false hp1.
End Try.
Arguments top : clear implicits.
Arguments targ : clear implicits.
