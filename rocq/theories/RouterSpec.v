(** Specification of registration: what a history of registration calls means.
    A history is a flat list of events; nothing here refers to router objects. *)
From Verif Require Import Base GoStr Strconv Pattern Tree TreeSpec Router.

(** the methods there are, in the order in which ANY takes them *)
Definition method_names : list gostr :=
  [L "GET"; L "POST"; L "DELETE"; L "PUT"; L "PATCH"; L "HEAD"; L "OPTIONS"].

Section Spec.
Context {A : Type}.

Inductive ev :=
  | ENew                                                        (* NewRouter() *)
  | EGroup (r : nat) (pattern : gostr)                          (* a group made on r *)
  | ERoute (r : nat) (m pattern : gostr) (hs : list (ival A))   (* a route added to r *)
  | EBefore (r : nat) (hs : list (ival A))                      (* r.Before(hs...) *)
  | EUse (r : nat) (hs : list (ival A))                         (* r.Use(hs...) *)
  | EGroupMw (r : nat) (h : ival A).        (* a middleware argument of r.Group(...) *)

(** The events of a call.  ANY adds one route per method that is not excluded. *)
Fixpoint evs_of (op : rop A) : list ev :=
  match op with
  | RNew => [ENew]
  | RBefore r hs => [EBefore r hs]
  | RUse r hs => [EUse r hs]
  | RHandle r m pattern hs =>
      match method_names !! m with
      | Some name => [ERoute r name pattern hs]
      | None => []
      end
  | RAny r excl pattern hs =>
      map (fun m => ERoute r m pattern hs)
          (List.filter (fun m => negb (existsb (seqb m) excl)) method_names)
  | RGroup r pattern args =>
      EGroup r pattern ::
      (fix go (l : list (garg A)) : list ev :=
         match l with
         | [] => []
         | GMw a :: l' => EGroupMw r (IFuncCtx a) :: go l'
         | GSub ops :: l' =>
             (fix run (ops : list (rop A)) : list ev :=
                match ops with
                | [] => []
                | op :: ops' => evs_of op ++ run ops'
                end) ops ++ go l'
         | GOther :: l' => go l'
         end) args
  end.
Definition history (ops : list (rop A)) : list ev := concat (map evs_of ops).

(** Routers, groups and routes are numbered in the order of their creation. *)
Definition creates (e : ev) : bool :=
  match e with ENew | EGroup _ _ | ERoute _ _ _ _ => true | _ => false end.
Definition creations (h : list ev) : list ev := List.filter creates h.
Definition parent_of (e : ev) : option nat :=
  match e with EGroup r _ => Some r | ERoute r _ _ _ => Some r | _ => None end.
Definition pattern_of (e : ev) : gostr :=
  match e with EGroup _ p => p | ERoute _ _ p _ => p | _ => [] end.
Definition handlers_of (e : ev) : list (ival A) :=
  match e with ERoute _ _ _ hs => hs | _ => [] end.
Definition method_of (e : ev) : gostr :=
  match e with ERoute _ m _ _ => m | _ => [] end.

(** middleware attached to r in the course of the whole history; the middleware
    arguments of a Group call go to the router it is called on *)
Definition mws (h : list ev) (r : nat) : list (ival A) :=
  concat (map (fun e => match e with
                        | EUse r' hs => if decide (r' = r) then hs else []
                        | EGroupMw r' x => if decide (r' = r) then [x] else []
                        | _ => []
                        end) h).
Definition befores (h : list ev) (r : nat) : list (ival A) :=
  concat (map (fun e => match e with
                        | EBefore r' hs => if decide (r' = r) then hs else []
                        | _ => []
                        end) h).

(** [lineage h r path]: path leads from a root to r through the enclosing groups *)
Inductive lineage (h : list ev) : nat -> list nat -> Prop :=
  | lineage_root r : creations h !! r = Some ENew -> lineage h r [r]
  | lineage_child r c p path :
      creations h !! r = Some c -> parent_of c = Some p -> lineage h p path ->
      lineage h r (path ++ [r]).

(** the handlers that run for the route (or group) l with that lineage *)
Definition chain (h : list ev) (path : list nat) (l : nat) : list (ival A) :=
  match path with root :: _ => befores h root | [] => [] end ++
  concat (map (mws h) path) ++
  match creations h !! l with Some e => handlers_of e | None => [] end.

(** its full URI: the patterns along the lineage, without surrounding space *)
Definition full_uri (h : list ev) (path : list nat) : gostr :=
  concat (map (fun r => match creations h !! r with
                        | Some e => trim_space (pattern_of e)
                        | None => []
                        end) path).

(** nothing was added to r *)
Definition childless (h : list ev) (r : nat) : Prop :=
  forall i c, creations h !! i = Some c -> parent_of c <> Some r.

(** r is a route (not a router or group) *)
Definition is_route (h : list ev) (l : nat) (m : gostr) : Prop :=
  exists p pat hs, creations h !! l = Some (ERoute p m pat hs).

(** the handler made from a value of a supported type *)
Inductive converts : ival A -> handler A -> Prop :=
  | conv_handler a : converts (IHandler a) (HHandler a)
  | conv_func a : converts (IFuncCtx a) (HFuncCtx a)
  | conv_http a : converts (IHttpHandler a) (HHttp a)
  | conv_httpfunc a : converts (IHttpFunc a) (HHttpFunc a).
Definition supported (v : ival A) : Prop := exists h, converts v h.

(** Lexicographic order on lineages: the earlier created comes first at the
    first difference. *)
Inductive lex : list nat -> list nat -> Prop :=
  | lex_here c a b s t : a < b -> lex (c ++ a :: s) (c ++ b :: t).

(** a legal full URI: "/" or beginning, but not ending, with a slash *)
Definition legal_uri (u : gostr) : Prop :=
  u = L "/" \/
  ((exists t, u = "/"%char :: t) /\ ~ (exists t, u = t ++ ["/"%char])).

(** an option that does not make Handler() panic *)
Definition legal_opt (o : opt A) : Prop :=
  match o with
  | WithNoFoundHandlers hs => hs <> [] /\ Forall supported hs
  | _ => True
  end.

End Spec.
Arguments ev : clear implicits.
