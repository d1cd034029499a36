(** Router objects, registration calls and Handler(): router.go, option.go and
    the tree building of engine.go. *)
From Verif Require Import Base GoStr Strconv Pattern Tree.

Section Router.
(** identities of the function values and objects passed as handlers *)
Context {A : Type}.

(** ** Handler values *)

(** A value of Go type interface{} passed as a handler, by its dynamic type:
    - an implementation of water.Handler (this includes HandlerFunc),
    - a func(<star>Context), a http.Handler, a func(http.ResponseWriter, <star>http.Request),
    - the nil interface, anything else. *)
Inductive ival :=
  | IHandler (a : A) | IFuncCtx (a : A) | IHttpHandler (a : A) | IHttpFunc (a : A)
  | INil | IOther.

(** engine.go:11-13: a value of interface type Handler, by how it was made. *)
Inductive handler :=
  | HHandler (a : A)      (* engine.go:24-25: the value itself *)
  | HFuncCtx (a : A)      (* engine.go:26-27: HandlerFunc(h) *)
  | HHttp (a : A)         (* engine.go:28-31: h.ServeHTTP(ctx, ctx.Request) *)
  | HHttpFunc (a : A).    (* engine.go:32-35: h(ctx, ctx.Request) *)

(** engine.go:22-39 newHandler *)
Definition newHandler (v : ival) : res handler :=
  match v with
  | IHandler a => Ok (HHandler a)
  | IFuncCtx a => Ok (HFuncCtx a)
  | IHttpHandler a => Ok (HHttp a)
  | IHttpFunc a => Ok (HHttpFunc a)
  | INil | IOther => Panic (L "unsupported handler")
  end.

(** engine.go:41-50 newHandlers *)
Fixpoint newHandlers (vs : list ival) : res (list handler) :=
  match vs with
  | [] => Ok []
  | v :: vs' => let! h := newHandler v in let! hs := newHandlers vs' in Ok (h :: hs)
  end.

(** ** Router objects *)

(** router.go:104-114.  Routers live in a heap; a pointer is an index.  [r_leaf]
    tells the objects made by handle, to which no client has a pointer. *)
Record router := mkRouter {
  r_method : gostr;
  r_pattern : gostr;
  r_gbefores : list ival;
  r_befores : list ival;
  r_handlers : list ival;
  r_parent : option nat;
  r_sub : list nat;           (* nil and empty are the same here *)
  r_leaf : bool
}.
Local Notation heap := (list router).

Definition set_gbefores (f : list ival -> list ival) (r : router) : router :=
  mkRouter (r_method r) (r_pattern r) (f (r_gbefores r)) (r_befores r) (r_handlers r)
           (r_parent r) (r_sub r) (r_leaf r).
Definition set_befores (f : list ival -> list ival) (r : router) : router :=
  mkRouter (r_method r) (r_pattern r) (r_gbefores r) (f (r_befores r)) (r_handlers r)
           (r_parent r) (r_sub r) (r_leaf r).
Definition set_sub (f : list nat -> list nat) (r : router) : router :=
  mkRouter (r_method r) (r_pattern r) (r_gbefores r) (r_befores r) (r_handlers r)
           (r_parent r) (f (r_sub r)) (r_leaf r).

(** Dereferencing a pointer held by a client.  Indices that are no router, or a
    leaf, cannot be in the hands of a client; the call is then rejected. *)
Definition deref (hp : heap) (r : nat) : res router :=
  match hp !! r with
  | Some x => if r_leaf x then Panic (L "no such router") else Ok x
  | None => Panic (L "no such router")
  end.

(** router.go:116-118 NewRouter *)
Definition NewRouter (hp : heap) : heap :=
  hp ++ [mkRouter [] [] [] [] [] None [] false].

(** router.go:275-277 *)
Definition IsParent (x : router) : bool :=
  match r_parent x with None => true | Some _ => false end.

(** router.go:121-127 *)
Definition Before (hp : heap) (r : nat) (hs : list ival) : res heap :=
  let! x := deref hp r in
  if negb (IsParent x) then Panic (L "sub router not allowed: Before()")
  else Ok (alter (set_gbefores (fun l => l ++ hs)) r hp).

(** router.go:151-153 *)
Definition Use (hp : heap) (r : nat) (hs : list ival) : res heap :=
  let! x := deref hp r in
  Ok (alter (set_befores (fun l => l ++ hs)) r hp).

Definition is_nil (v : ival) : bool := match v with INil => true | _ => false end.

(** router.go:155-170 *)
Definition handle (hp : heap) (r : nat) (method pattern : gostr) (hs : list ival) : res heap :=
  let! x := deref hp r in
  if existsb is_nil hs then Panic (L "handler err : find nil in handlers")
  else Ok (alter (set_sub (fun l => l ++ [length hp])) r hp ++
           [mkRouter method pattern [] [] hs (Some r) [] true]).

(** router.go:22-30 *)
Definition _HTTP_METHODS_NAMES : list gostr :=
  [L "GET"; L "POST"; L "DELETE"; L "PUT"; L "PATCH"; L "HEAD"; L "OPTIONS"].

(** router.go:33-52; None is -1 *)
Definition MethodIndex (m : gostr) : option nat :=
  if seqb m (L "GET") then Some 0
  else if seqb m (L "POST") then Some 1
  else if seqb m (L "DELETE") then Some 2
  else if seqb m (L "PUT") then Some 3
  else if seqb m (L "PATCH") then Some 4
  else if seqb m (L "HEAD") then Some 5
  else if seqb m (L "OPTIONS") then Some 6
  else None.

(** router.go:176-186; [excl] is the package variable MethodAnyExclude *)
Fixpoint any_loop (excl : list gostr) (ms : list gostr) (hp : heap) (r : nat)
    (pattern : gostr) (hs : list ival) : res heap :=
  match ms with
  | [] => Ok hp
  | m :: ms' =>
      if existsb (seqb m) excl then any_loop excl ms' hp r pattern hs
      else let! hp := handle hp r m pattern hs in any_loop excl ms' hp r pattern hs
  end.
Definition ANY (excl : list gostr) (hp : heap) (r : nat) (pattern : gostr) (hs : list ival)
  : res heap :=
  any_loop excl _HTTP_METHODS_NAMES hp r pattern hs.

(** router.go:173 *)
Definition MethodAnyExclude : list gostr := [L "HEAD"; L "OPTIONS"].

(** A call made by a client.  A callback given to Group is represented by the
    calls it makes when it is run.  RHandle stands for GET, POST, PUT, PATCH,
    DELETE, OPTIONS and HEAD (router.go:188-214), by the method index.
    Here a panic in a call ends the registration; clients that recover and go on
    are in RouterTry. *)
Inductive rop :=
  | RNew
  | RBefore (r : nat) (hs : list ival)
  | RUse (r : nat) (hs : list ival)
  | RHandle (r : nat) (m : nat) (pattern : gostr) (hs : list ival)
  | RAny (r : nat) (excl : list gostr) (pattern : gostr) (hs : list ival)
  | RGroup (r : nat) (pattern : gostr) (args : list garg)
with garg :=
  | GMw (a : A)                 (* a func(<star>Context) *)
  | GSub (ops : list rop)       (* a func(<star>Router) *)
  | GOther.                     (* anything else *)

(** router.go:129-149 Group is the last case. *)
Fixpoint exec (op : rop) (hp : heap) {struct op} : res heap :=
  match op with
  | RNew => Ok (NewRouter hp)
  | RBefore r hs => Before hp r hs
  | RUse r hs => Use hp r hs
  | RHandle r m pattern hs =>
      match _HTTP_METHODS_NAMES !! m with
      | Some name => handle hp r name pattern hs
      | None => Panic (L "no such method")
      end
  | RAny r excl pattern hs => ANY excl hp r pattern hs
  | RGroup r pattern args =>
      let! x := deref hp r in
      let hp := alter (set_sub (fun l => l ++ [length hp])) r hp ++
                [mkRouter [] pattern [] [] [] (Some r) [] false] in
      (fix go (args : list garg) (hp : heap) {struct args} : res heap :=
         match args with
         | [] => Ok hp
         | GMw a :: args' =>
             go args' (alter (set_befores (fun l => l ++ [IFuncCtx a])) r hp)
         | GSub ops :: args' =>
             let! hp :=
               (fix run (ops : list rop) (hp : heap) {struct ops} : res heap :=
                  match ops with
                  | [] => Ok hp
                  | op :: ops' => let! hp := exec op hp in run ops' hp
                  end) ops hp in
             go args' hp
         | GOther :: _ => Panic (L "unsupported type")
         end) args hp
  end.
Fixpoint run_ops (ops : list rop) (hp : heap) : res heap :=
  match ops with
  | [] => Ok hp
  | op :: ops' => let! hp := exec op hp in run_ops ops' hp
  end.

(** ** Route dump *)

(** router.go:56-61 *)
Record route := mkRoute {
  rt_method : gostr; rt_uri : gostr; rt_variant : gostr; rt_handlers : list handler
}.

(** router.go:232-260, the loop of getRoute.  [fuel] bounds the climb; getRoute
    supplies enough because parents are older than their children. *)
Fixpoint climb (fuel : nat) (hp : heap) (tmp : nat) (ps : list gostr) (hs : list ival)
  : res (list gostr * list ival) :=
  match fuel with
  | O => Diverge
  | S fuel =>
      match hp !! tmp with
      | None => Panic (L "nil pointer dereference")
      | Some t =>
          let ps := ps ++ [trim_space (r_pattern t)] in
          let hs := hs ++ r_handlers t in
          let hs := r_befores t ++ hs in
          let hs := r_gbefores t ++ hs in
          match r_parent t with
          | None => Ok (ps, hs)
          | Some p => climb fuel hp p ps hs
          end
      end
  end.

(** util.go:79-85 reverseStrings: the in-place reversal *)
Definition reverseStrings (l : list gostr) : list gostr := rev l.

(** router.go:228-273 getRoute *)
Definition getRoute (hp : heap) (r : nat) : res route :=
  let! (ps, hs) := climb (S (length hp)) hp r [] [] in
  let! handlers := newHandlers hs in
  match hp !! r with
  | None => Panic (L "nil pointer dereference")
  | Some x =>
      match handlers with
      | [] => Panic (L "handler err : empty handlers in route")
      | _ => Ok (mkRoute (r_method x) (join [] (reverseStrings ps)) [] handlers)
      end
  end.

(** router.go:65-70; the two-level map is keyed by pairs *)
Record routeStore := mkStore {
  rs_map : gmap (gostr * gostr) route;
  rs_slice : list route
}.
(** router.go:72-83 *)
Definition newRouteStore : routeStore := mkStore ∅ [].

(** router.go:85-99; the mutex is not modelled (Handler is one goroutine) *)
Definition rs_add (rs : routeStore) (rt : route) : res routeStore :=
  if seqb (rt_method rt) [] then Ok rs
  else match rs_map rs !! (rt_method rt, rt_uri rt) with
       | Some _ => Panic (L "double uri")
       | None => Ok (mkStore (<[(rt_method rt, rt_uri rt) := rt]> (rs_map rs)) (rs_slice rs ++ [rt]))
       end.

(** router.go:217-226 dumpRoute *)
Fixpoint dumpRoute (fuel : nat) (hp : heap) (r : nat) (rs : routeStore) : res routeStore :=
  match fuel with
  | O => Diverge
  | S fuel =>
      match hp !! r with
      | None => Panic (L "nil pointer dereference")
      | Some x =>
          match r_sub x with
          | [] => let! rt := getRoute hp r in rs_add rs rt
          | subs =>
              (fix go (l : list nat) (rs : routeStore) {struct l} : res routeStore :=
                 match l with
                 | [] => Ok rs
                 | v :: l' => let! rs := dumpRoute fuel hp v rs in go l' rs
                 end) subs rs
          end
      end
  end.

(** router.go:331-348 _VariantUri *)
Definition variant_seg (v : gostr) : gostr :=
  if has_prefix (L "*") v then trim_space v
  else if has_prefix (L ":") v then L "<" ++ trim_space (drop 1 v) ++ L ">"
  else v.
Definition _VariantUri (raw : gostr) : gostr :=
  if negb (contains (L "/:") raw) && negb (contains (L "/*") raw) then raw
  else join (L "/") (map variant_seg (split_byte "/" raw)).

(** util.go:74-77 *)
Definition checkSplitPattern (p : gostr) : bool :=
  match p with
  | [] => false
  | c :: _ => Ascii.eqb c "/" && negb (Ascii.eqb (List.last p "0"%char) "/")
  end.

(** router.go:309-315 *)
Fixpoint check_uris (l : list route) : res (list route) :=
  match l with
  | [] => Ok []
  | v :: l' =>
      if negb (seqb (rt_uri v) (L "/") || checkSplitPattern (rt_uri v)) then Panic (L "invalid route")
      else let! l'' := check_uris l' in
           Ok (mkRoute (rt_method v) (rt_uri v) (_VariantUri (rt_uri v)) (rt_handlers v) :: l'')
  end.

(** ** Options: option.go *)

(** option.go:3-7 *)
Record options := mkOptions {
  o_static : bool; o_nofound : list handler; o_maxmem : Z
}.
(** option.go:13-36, the values given to Handler *)
Inductive opt :=
  | WithStaticRouter (enable : bool)
  | WithNoFoundHandlers (hs : list ival)
  | WithMaxMultipartMemory (max : Z).
Definition apply_opt (o : options) (f : opt) : res options :=
  match f with
  | WithStaticRouter b => Ok (mkOptions b (o_nofound o) (o_maxmem o))
  | WithNoFoundHandlers [] => Panic (L "no NoFoundHandlers")
  | WithNoFoundHandlers hs =>
      let! hs := newHandlers hs in Ok (mkOptions (o_static o) hs (o_maxmem o))
  | WithMaxMultipartMemory m => Ok (mkOptions (o_static o) (o_nofound o) m)
  end.
(** router.go:286-289.  In Go all options are built (and an empty
    WithNoFoundHandlers panics) before any is applied; as both only ever panic,
    the order is not observable. *)
Fixpoint apply_opts (o : options) (fs : list opt) : res options :=
  match fs with
  | [] => Ok o
  | f :: fs' => let! o := apply_opt o f in apply_opts o fs'
  end.

(** ** The engine *)

(** What the engine holds for one method: engine.go:65-66, one element of
    routers and routersStatic, together with the matchNode fields of the leaves
    of that tree (tree.go:30), by leaf identity.  A leaf's identity is the
    number of the [add] call on its tree that made it. *)
Record mrouter := mkMRouter {
  m_tree : option (node handler);
  m_static : gmap gostr (enode handler);
  m_match : gmap nat route;
  m_count : nat
}.
Definition empty_mrouter : mrouter := mkMRouter None ∅ ∅ 0.

(** engine.go:62-69 without the pool; option fields flattened *)
Record engine := mkEngine {
  en_options : options;
  en_root : nat;
  en_routers : list mrouter;      (* of length 8 *)
  en_store : routeStore
}.

(** whether regexp.Compile accepts an expression *)
Variable re_ok : gostr -> bool.

(** engine.go:163-178, one iteration of the loop of buildTree *)
Definition add_route (static : bool) (m : mrouter) (v : route) : res mrouter :=
  let t := match m_tree m with Some t => t | None => newTree end in
  let! (t', e, kinds) := add re_ok t (rt_variant v) (m_count m) (rt_handlers v) in
  Ok (mkMRouter (Some t')
        (if static && isStaticRoute kinds then <[rt_variant v := e]> (m_static m) else m_static m)
        (<[e_id e := v]> (m_match m))
        (S (m_count m))).

(** engine.go:159-180 buildTree *)
Fixpoint buildTree (static : bool) (ms : list mrouter) (l : list route) : res (list mrouter) :=
  match l with
  | [] => Ok ms
  | v :: l' =>
      match MethodIndex (rt_method v) with
      | None => Panic (L "runtime error: index out of range [-1]")
      | Some i =>
          match ms !! i with
          | None => Panic (L "runtime error: index out of range")
          | Some m => let! m' := add_route static m v in buildTree static (<[i := m']> ms) l'
          end
      end
  end.

(** engine.go:71-82 newWater *)
Definition no_routers : list mrouter := replicate 8 empty_mrouter.

(** router.go:281-329 Handler.  Second component: the package variable
    defaultMultipartMemory (and its copy in package binding) afterwards. *)
Definition Handler (hp : heap) (r : nat) (opts : list opt) (mem : Z) : res engine * Z :=
  match (let! x := deref hp r in
         if negb (IsParent x) then Panic (L "sub router not allowed: Handler()")
         else
           let! o := apply_opts (mkOptions false [] 0%Z) opts in
           let! o :=
             (if negb (length (o_nofound o) =? 0) && negb (length (r_gbefores x) =? 0) then
                let! g := newHandlers (r_gbefores x) in
                Ok (mkOptions (o_static o) (g ++ o_nofound o) (o_maxmem o))
              else Ok o) in
           let! rs := dumpRoute (S (length hp)) hp r newRouteStore in
           let! slice := check_uris (rs_slice rs) in
           Ok (o, mkStore (rs_map rs) slice))
  with
  | Panic m => (Panic m, mem)
  | Diverge => (Diverge, mem)
  | Ok (o, rs) =>
      (let! ms := buildTree (o_static o) no_routers (rs_slice rs) in
       Ok (mkEngine o r ms rs),
       o_maxmem o)
  end.

(** router.go:350-365 Classic and Default; the two handlers made by Logger()
    and Recovery() are parameters *)
Definition Classic (logger recovery : A) (hp : heap) (r : nat) : res heap :=
  let! x := deref hp r in
  if negb (IsParent x) then Panic (L "sub router not allowed : Classic()")
  else let! hp := Use hp r [IHandler logger] in Use hp r [IHandler recovery].
Definition Default (logger recovery : A) (hp : heap) : res heap :=
  Classic logger recovery (NewRouter hp) (length hp).

End Router.
Arguments ival : clear implicits.
Arguments handler : clear implicits.
Arguments router : clear implicits.
Notation heap A := (list (router A)).
Arguments rop : clear implicits.
Arguments garg : clear implicits.
Arguments route : clear implicits.
Arguments routeStore : clear implicits.
Arguments options : clear implicits.
Arguments opt : clear implicits.
Arguments mrouter : clear implicits.
Arguments engine : clear implicits.
