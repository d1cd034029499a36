(** Registration and Handler() with Go's slices as they are in memory: slices that
    share arrays, append in place while there is capacity, clients that keep the
    slices they passed and write to them.  Router.v and RouterTry.v take slices for
    lists; SliceFacts.v shows when that is right. *)
From Verif Require Import Base GoStr Strconv Pattern Tree Router RouterTry.

(** ** Memory *)

Section Mem.
Context {T : Type}.
(** an array, and whether it was made by a client *)
Record array := mkArr { a_client : bool; a_cells : list T }.
Local Notation mem := (list array).
(** a slice; the nil slice has no capacity *)
Record slice := mkSl { s_arr : nat; s_off : nat; s_len : nat; s_cap : nat }.
Definition s_nil : slice := mkSl 0 0 0 0.

(** the elements of a slice *)
Definition sread (m : mem) (s : slice) : list T :=
  match m !! s_arr s with
  | Some a => take (s_len s) (drop (s_off s) (a_cells a))
  | None => []
  end.
(** a[i], a[i+1], ... = vs *)
Definition put (i : nat) (vs : list T) (a : array) : array :=
  mkArr (a_client a) (take i (a_cells a) ++ vs ++ drop (i + length vs) (a_cells a)).

(** the value of new cells *)
Variable zero : T.
(** how much more than needed the runtime allocates in append, given the old
    capacity and the needed one *)
Variable spare : nat -> nat -> nat.

(** the built-in append(s, vs...) *)
Definition sappend (m : mem) (s : slice) (vs : list T) : mem * slice :=
  let n := s_len s + length vs in
  if n <=? s_cap s
  then (alter (put (s_off s + s_len s) vs) (s_arr s) m, mkSl (s_arr s) (s_off s) n (s_cap s))
  else let k := spare (s_cap s) n in
       (m ++ [mkArr false (sread m s ++ vs ++ repeat zero k)], mkSl (length m) 0 n (n + k)).
(** the built-in make([]T, n) *)
Definition smake (m : mem) (n : nat) : mem * slice :=
  (m ++ [mkArr false (repeat zero n)], mkSl (length m) 0 n n).
(** the built-in copy(dst, vs) *)
Definition scopy (m : mem) (dst : slice) (vs : list T) : mem :=
  alter (put (s_off dst) (take (s_len dst) vs)) (s_arr dst) m.

(** a slice that a client can have: within an array of its own *)
Definition client_slice (m : mem) (s : slice) : bool :=
  (s_len s <=? s_cap s) &&
  ((s_cap s =? 0) ||
   match m !! s_arr s with
   | Some a => a_client a && (s_off s + s_cap s <=? length (a_cells a))
   | None => false
   end).
(** whether a cell is one of the elements of a slice *)
Definition covers (s : slice) (arr i : nat) : bool :=
  (s_arr s =? arr) && (s_off s <=? i) && (i <? s_off s + s_len s).
End Mem.
Arguments array : clear implicits.
Notation mem T := (list (array T)).

Section Slices.
Context {A : Type}.
Variable spare : nat -> nat -> nat.

(** ** Routers *)

(** router.go:104-114, compare Router.router *)
Record srouter := mkSR {
  sr_method : gostr;
  sr_pattern : gostr;
  sr_gbefores : slice;
  sr_befores : slice;
  sr_handlers : slice;
  sr_parent : option nat;
  sr_sub : slice;
  sr_leaf : bool
}.
(** The memory: routers, arrays of interface{}, of Handler and of *Router.
    [st_hit] is ghost: a client has overwritten a handler of a route it had
    registered. *)
Record sstate := mkSt {
  st_rs : list srouter;
  st_i : mem (ival A);
  st_h : mem (handler A);
  st_r : mem nat;
  st_hit : bool
}.
Definition st_empty : sstate := mkSt [] [] [] [] false.

Definition set_sgb (s : slice) (x : srouter) : srouter :=
  mkSR (sr_method x) (sr_pattern x) s (sr_befores x) (sr_handlers x) (sr_parent x) (sr_sub x) (sr_leaf x).
Definition set_sb (s : slice) (x : srouter) : srouter :=
  mkSR (sr_method x) (sr_pattern x) (sr_gbefores x) s (sr_handlers x) (sr_parent x) (sr_sub x) (sr_leaf x).
Definition set_ssub (s : slice) (x : srouter) : srouter :=
  mkSR (sr_method x) (sr_pattern x) (sr_gbefores x) (sr_befores x) (sr_handlers x) (sr_parent x) s (sr_leaf x).

(** the nil interface is the zero value of interface{}; the zero value of Handler
    is never read *)
Local Notation iappend := (sappend (T := ival A) INil spare).
Local Notation rappend := (sappend (T := nat) 0 spare).

Local Notation after := (sstate * option gostr)%type.

(** a pointer held by a client; compare Router.deref *)
Definition sderef (st : sstate) (r : nat) (k : srouter -> after) : after :=
  match st_rs st !! r with
  | Some x => if sr_leaf x then (st, Some (L "no such router")) else k x
  | None => (st, Some (L "no such router"))
  end.
(** a slice held by a client; a client cannot pass another one, and then nothing
    happens *)
Definition sarg (st : sstate) (s : slice) (k : after) : after :=
  if client_slice (st_i st) s then k else (st, None).

(** router.go:121-127 *)
Definition sBefore (st : sstate) (r : nat) (s : slice) : after :=
  sderef st r (fun x =>
    if negb (match sr_parent x with None => true | Some _ => false end)
    then (st, Some (L "sub router not allowed: Before()"))
    else let '(m, g) := iappend (st_i st) (sr_gbefores x) (sread (st_i st) s) in
         (mkSt (alter (set_sgb g) r (st_rs st)) m (st_h st) (st_r st) (st_hit st), None)).

(** r.befores = append(r.befores, vs...) *)
Definition sbefores (st : sstate) (r : nat) (vs : list (ival A)) : sstate :=
  match st_rs st !! r with
  | Some x =>
      let '(m, b) := iappend (st_i st) (sr_befores x) vs in
      mkSt (alter (set_sb b) r (st_rs st)) m (st_h st) (st_r st) (st_hit st)
  | None => st
  end.
(** router.go:151-153 *)
Definition sUse (st : sstate) (r : nat) (s : slice) : after :=
  sderef st r (fun _ => (sbefores st r (sread (st_i st) s), None)).

(** router.go:130-135 and 162-169: a new router below r *)
Definition sadd (st : sstate) (r : nat) (x : srouter) (y : srouter) : sstate :=
  let '(m, sub) := rappend (st_r st) (sr_sub x) [length (st_rs st)] in
  mkSt (alter (set_ssub sub) r (st_rs st) ++ [y]) (st_i st) (st_h st) m (st_hit st).

(** router.go:155-170: the slice itself is kept *)
Definition shandle (st : sstate) (r : nat) (method pattern : gostr) (s : slice) : after :=
  sderef st r (fun x =>
    if existsb is_nil (sread (st_i st) s) then (st, Some (L "handler err : find nil in handlers"))
    else (sadd st r x (mkSR method pattern s_nil s_nil s (Some r) s_nil true), None)).

(** router.go:176-186 *)
Fixpoint sany (excl : list gostr) (ms : list gostr) (st : sstate) (r : nat) (pattern : gostr) (s : slice) : after :=
  match ms with
  | [] => (st, None)
  | m :: ms' =>
      if existsb (seqb m) excl then sany excl ms' st r pattern s
      else match shandle st r m pattern s with
           | (st, None) => sany excl ms' st r pattern s
           | stop => stop
           end
  end.

(** What a client does, as RouterTry.top: registration calls with slices of its
    own, and with these slices: making an array, writing to a cell (append to a
    slice of its own is one or the other). *)
Inductive sop :=
  | SNew
  | SBefore (r : nat) (s : slice)
  | SUse (r : nat) (s : slice)
  | SHandle (r : nat) (m : nat) (pattern : gostr) (s : slice)
  | SAny (r : nat) (excl : list gostr) (pattern : gostr) (s : slice)
  | SGroup (r : nat) (pattern : gostr) (args : list sgarg)
  | STry (t : sop)
  | SMake (vs : list (ival A))
  | SPut (arr i : nat) (v : ival A)
with sgarg :=
  | SMw (a : A)
  | SSub (ts : list sop)
  | SOther.

(** a client writes v to a cell; there is nothing to write to elsewhere *)
Definition sput (st : sstate) (arr i : nat) (v : ival A) : after :=
  match st_i st !! arr with
  | Some a =>
      if a_client a && (i <? length (a_cells a))
      then (mkSt (st_rs st) (alter (put i [v]) arr (st_i st)) (st_h st) (st_r st)
              (st_hit st || existsb (fun x => covers (sr_handlers x) arr i) (st_rs st)), None)
      else (st, None)
  | None => (st, None)
  end.

(** The memory and the panic that goes on after the client's step. *)
Fixpoint sexec (t : sop) (st : sstate) {struct t} : after :=
  match t with
  | SNew => (mkSt (st_rs st ++ [mkSR [] [] s_nil s_nil s_nil None s_nil false]) (st_i st) (st_h st) (st_r st) (st_hit st), None)
  | SBefore r s => sarg st s (sBefore st r s)
  | SUse r s => sarg st s (sUse st r s)
  | SHandle r m pattern s =>
      sarg st s (match _HTTP_METHODS_NAMES !! m with
                 | Some name => shandle st r name pattern s
                 | None => (st, Some (L "no such method"))
                 end)
  | SAny r excl pattern s => sarg st s (sany excl _HTTP_METHODS_NAMES st r pattern s)
  | SGroup r pattern args =>                    (* router.go:129-149 *)
      sderef st r (fun x =>
        (fix go (args : list sgarg) (st : sstate) {struct args} : after :=
           match args with
           | [] => (st, None)
           | SMw a :: args' => go args' (sbefores st r [IFuncCtx a])
           | SSub ts :: args' =>
               match (fix run (ts : list sop) (st : sstate) {struct ts} : after :=
                        match ts with
                        | [] => (st, None)
                        | t :: ts' =>
                            match sexec t st with
                            | (st, None) => run ts' st
                            | stop => stop
                            end
                        end) ts st with
               | (st, None) => go args' st
               | stop => stop
               end
           | SOther :: _ => (st, Some (L "unsupported type"))
           end) args
          (sadd st r x (mkSR [] pattern s_nil s_nil s_nil (Some r) s_nil false)))
  | STry t => ((sexec t st).1, None)
  | SMake vs => (mkSt (st_rs st) (st_i st ++ [mkArr true vs]) (st_h st) (st_r st) (st_hit st), None)
  | SPut arr i v => sput st arr i v
  end.
Fixpoint srun (ts : list sop) (st : sstate) : after :=
  match ts with
  | [] => (st, None)
  | t :: ts' =>
      match sexec t st with
      | (st, None) => srun ts' st
      | stop => stop
      end
  end.

(** ** Handler() *)

(** router.go:243-249 and 251-257: make, copy, append *)
Definition prepend (m : mem (ival A)) (before hs : slice) : mem (ival A) * slice :=
  if negb (s_len before =? 0) then
    let '(m, tmp) := smake INil m (s_len before) in
    let m := scopy m tmp (sread m before) in
    iappend m tmp (sread m hs)
  else (m, hs).
(** router.go:232-265, the loop of getRoute, compare Router.climb *)
Fixpoint sclimb (fuel : nat) (rs : list srouter) (m : mem (ival A)) (tmp : nat) (ps : list gostr) (hs : slice)
  : res (list gostr * (mem (ival A) * slice)) :=
  match fuel with
  | O => Diverge
  | S fuel =>
      match rs !! tmp with
      | None => Panic (L "nil pointer dereference")
      | Some t =>
          let ps := ps ++ [trim_space (sr_pattern t)] in
          let '(m, hs) := (if negb (s_len (sr_handlers t) =? 0)
                           then iappend m hs (sread m (sr_handlers t)) else (m, hs)) in
          let '(m, hs) := prepend m (sr_befores t) hs in
          let '(m, hs) := prepend m (sr_gbefores t) hs in
          match sr_parent t with
          | None => Ok (ps, (m, hs))
          | Some p => sclimb fuel rs m p ps hs
          end
      end
  end.

(** engine.go:41-50: a new array of Handler *)
Definition snewHandlers (m : mem (handler A)) (vs : list (ival A)) : res (mem (handler A) * slice) :=
  let! hs := newHandlers vs in
  Ok (m ++ [mkArr false hs], mkSl (length m) 0 (length hs) (length hs)).

(** router.go:56-61 *)
Record sroute := mkSRoute { srt_method : gostr; srt_uri : gostr; srt_handlers : slice }.

(** router.go:228-273 getRoute *)
Definition sgetRoute (rs : list srouter) (mi : mem (ival A)) (mh : mem (handler A)) (r : nat)
  : res (mem (ival A) * mem (handler A) * sroute) :=
  let! (ps, c) := sclimb (S (length rs)) rs mi r [] s_nil in
  let '(mi, hs) := c in
  let! (mh, handlers) := snewHandlers mh (sread mi hs) in
  match rs !! r with
  | None => Panic (L "nil pointer dereference")
  | Some x =>
      if s_len handlers =? 0 then Panic (L "handler err : empty handlers in route")
      else Ok (mi, mh, mkSRoute (sr_method x) (join [] (reverseStrings ps)) handlers)
  end.

(** router.go:85-99 *)
Definition srs_add (l : list sroute) (rt : sroute) : res (list sroute) :=
  if seqb (srt_method rt) [] then Ok l
  else if existsb (fun q => seqb (srt_method q) (srt_method rt) && seqb (srt_uri q) (srt_uri rt)) l
       then Panic (L "double uri") else Ok (l ++ [rt]).

(** router.go:217-226 dumpRoute *)
Fixpoint sdumpRoute (fuel : nat) (rs : list srouter) (mr : mem nat) (mi : mem (ival A)) (mh : mem (handler A))
    (r : nat) (l : list sroute) : res (mem (ival A) * mem (handler A) * list sroute) :=
  match fuel with
  | O => Diverge
  | S fuel =>
      match rs !! r with
      | None => Panic (L "nil pointer dereference")
      | Some x =>
          match sread mr (sr_sub x) with
          | [] => let! (ms, rt) := sgetRoute rs mi mh r in
                  let! l := srs_add l rt in Ok (ms, l)
          | subs =>
              (fix go (vs : list nat) (mi : mem (ival A)) (mh : mem (handler A)) (l : list sroute) {struct vs}
                 : res (mem (ival A) * mem (handler A) * list sroute) :=
                 match vs with
                 | [] => Ok (mi, mh, l)
                 | v :: vs' =>
                     let! (ms, l) := sdumpRoute fuel rs mr mi mh v l in
                     let '(mi, mh) := ms in go vs' mi mh l
                 end) subs mi mh l
          end
      end
  end.

(** option.go:13-36; WithNoFoundHandlers keeps the slice it is given and reads it
    when the option is applied *)
Inductive sopt :=
  | SWithStaticRouter (enable : bool)
  | SWithNoFoundHandlers (s : slice)
  | SWithMaxMultipartMemory (max : Z).
Record soptions := mkSO { so_static : bool; so_nofound : slice; so_maxmem : Z }.
Definition sapply_opt (mi : mem (ival A)) (mh : mem (handler A)) (o : soptions) (f : sopt)
  : res (mem (handler A) * soptions) :=
  match f with
  | SWithStaticRouter b => Ok (mh, mkSO b (so_nofound o) (so_maxmem o))
  | SWithNoFoundHandlers s =>
      if s_len s =? 0 then Panic (L "no NoFoundHandlers")
      else let! (mh, hs) := snewHandlers mh (sread mi s) in Ok (mh, mkSO (so_static o) hs (so_maxmem o))
  | SWithMaxMultipartMemory n => Ok (mh, mkSO (so_static o) (so_nofound o) n)
  end.
Fixpoint sapply_opts (mi : mem (ival A)) (mh : mem (handler A)) (o : soptions) (fs : list sopt)
  : res (mem (handler A) * soptions) :=
  match fs with
  | [] => Ok (mh, o)
  | f :: fs' => let! (mh, o) := sapply_opt mi mh o f in sapply_opts mi mh o fs'
  end.

(** What an engine holds: the options, and its routes in order with their
    handlers.  The leaves of the trees hold the same slices (engine.go:163-178),
    so that the trees at any time are those built from what the slices hold then:
    [engine_at]. *)
Record sengine := mkSEn { se_options : soptions; se_root : nat; se_routes : list sroute }.

(** router.go:281-329 Handler, up to the check of the URIs; the trees are built by
    engine_at.  Some of the memory is used even if Handler panics; this is not
    shown. *)
Definition sHandler (st : sstate) (r : nat) (opts : list sopt) : res (sstate * sengine) :=
  match st_rs st !! r with
  | None => Panic (L "no such router")
  | Some x =>
      if sr_leaf x then Panic (L "no such router")
      else if negb (match sr_parent x with None => true | Some _ => false end)
      then Panic (L "sub router not allowed: Handler()")
      else
        let! (mh, o) := sapply_opts (st_i st) (st_h st) (mkSO false s_nil 0%Z) opts in
        let! (mh, o) :=
          (if negb (s_len (so_nofound o) =? 0) && negb (s_len (sr_gbefores x) =? 0) then
             (* router.go:292-298 *)
             let! (mh, g) := snewHandlers mh (sread (st_i st) (sr_gbefores x)) in
             let gs := sread mh g in
             match gs with
             | [] => Panic [] (* not reached: there is at least one *)
             | z :: _ =>
                 let '(mh, tmp) := smake z mh (s_len (sr_gbefores x)) in
                 let mh := scopy mh tmp gs in
                 let '(mh, tmp) := sappend z spare mh tmp (sread mh (so_nofound o)) in
                 Ok (mh, mkSO (so_static o) tmp (so_maxmem o))
             end
           else Ok (mh, o)) in
        let! (ms, l) := sdumpRoute (S (length (st_rs st))) (st_rs st) (st_r st) (st_i st) mh r [] in
        let '(mi, mh) := ms in
        Ok (mkSt (st_rs st) mi mh (st_r st) (st_hit st), mkSEn o r l)
  end.

(** ** What the memory stands for *)

Definition abs_router (st : sstate) (x : srouter) : router A :=
  mkRouter (sr_method x) (sr_pattern x) (sread (st_i st) (sr_gbefores x)) (sread (st_i st) (sr_befores x))
    (sread (st_i st) (sr_handlers x)) (sr_parent x) (sread (st_r st) (sr_sub x)) (sr_leaf x).
Definition abs (st : sstate) : heap A := map (abs_router st) (st_rs st).
Definition abs_opt (st : sstate) (f : sopt) : opt A :=
  match f with
  | SWithStaticRouter b => WithStaticRouter b
  | SWithNoFoundHandlers s => WithNoFoundHandlers (sread (st_i st) s)
  | SWithMaxMultipartMemory n => WithMaxMultipartMemory n
  end.
Definition abs_route (mh : mem (handler A)) (rt : sroute) : route A :=
  mkRoute (srt_method rt) (srt_uri rt) [] (sread mh (srt_handlers rt)).

Variable re_ok : gostr -> bool.
(** the engine as it is while the memory is st: router.go:309-325 *)
Definition engine_at (st : sstate) (e : sengine) : res (engine A) :=
  let rs := map (abs_route (st_h st)) (se_routes e) in
  let o := mkOptions (so_static (se_options e)) (sread (st_h st) (so_nofound (se_options e))) (so_maxmem (se_options e)) in
  let! slice := check_uris rs in
  let! ms := buildTree re_ok (o_static o) no_routers slice in
  Ok (mkEngine o (se_root e) ms
        (mkStore (fold_left (fun m rt => <[(rt_method rt, rt_uri rt) := rt]> m) rs ∅) slice)).
End Slices.
Arguments srouter : clear implicits.
Arguments sstate : clear implicits.
Arguments sop : clear implicits.
Arguments sgarg : clear implicits.
