(** Specification of what happens while a request is served, in terms of the log
    of handler starts, calls on the Context and their answers. *)
From Verif Require Import Base GoStr Strconv Tree Header Router Ctx.
Local Open Scope Z_scope.

(** statuses that net/http accepts (server.go checkWriteHeaderCode), and those that
    RFC 7230 gives a body *)
Definition proper_code (n : Z) : bool := (100 <=? n)%Z && (n <=? 999)%Z.
Definition bears_body (n : Z) : bool := negb ((100 <=? n)%Z && (n <=? 199)%Z || (n =? 204)%Z || (n =? 304)%Z).

Section Spec.
Context {V : Type}.
Implicit Types l : list (event V).

(** the positions of the handlers started, in order *)
Definition starts l : list nat :=
  omap (fun e => match e with EvStart i => Some i | _ => None end) l.

(** the codes with which WriteHeader of the underlying writer was called *)
Definition sends l : list Z :=
  omap (fun e => match e with EvSend n => Some n | _ => None end) l.

(** the status asked for by a call on the Context's response methods *)
Definition asks (e : event V) : option Z :=
  match e with
  | EvCall (OWriteHeader n) _ => Some n
  | EvCall (OWrite _) _ => Some 200
  | _ => None
  end.
(** the first of them; None: no such call was made *)
Definition first_code l : option Z := head (omap asks l).
Definition responded l : Prop := first_code l <> None.

(** the data passed to ctx.Write *)
Definition data_of l : gostr :=
  concat (omap (fun e => match e with EvCall (OWrite d) _ => Some d | _ => None end) l).

(** the header map after the calls on Header() *)
Definition hdr_step (h : header) (e : event V) : header :=
  match e with
  | EvCall (OHeaderSet k v) _ => h_set h k v
  | EvCall (OHeaderAdd k v) _ => h_add h k v
  | EvCall (OHeaderDel k) _ => h_del h k
  | _ => h
  end.
Definition headers_of l : header := fold_left hdr_step l ∅.

(** operations that bypass the Context *)
Definition raw (o : op V) : Prop :=
  match o with ORawWriteHeader _ | ORawWrite _ => True | _ => False end.

(** a value stored under a name by Set, or by assigning to the map *)
Definition stores (n : gostr) (e : event V) : option V :=
  match e with
  | EvCall (OSet n' v) (Norm _) => if decide (n' = n) then Some v else None
  | EvCall (OEnvPut n' v) (Norm _) => if decide (n' = n) then Some v else None
  | _ => None
  end.

(** the value that a name has after the calls in l *)
Definition stored l (n : gostr) : option V := last (omap (stores n) l).

(** Properties of logs: every event e is all right given the events before it. *)
Definition hist (Q : list (event V) -> event V -> Prop) l : Prop :=
  forall l1 e l2, l = l1 ++ e :: l2 -> Q l1 e.

(** when a handler may be started: at the beginning, by a call of Next, or when a
    handler returned and no response was made yet *)
Definition may_start l : Prop :=
  l = [] \/ (exists k, l = k ++ [EvNext]) \/ (exists k i, l = k ++ [EvEnd i] /\ ~ responded k).
Definition start_rule l (e : event V) : Prop :=
  match e with EvStart _ => may_start l | _ => True end.

(** the answers of Written() and Status() *)
Definition flag_rule l (e : event V) : Prop :=
  match e with
  | EvCall o r =>
      match o return outcome (ans o) -> Prop with
      | OWritten => fun r => exists b : bool, r = Norm b /\ (b = true <-> responded l)
      | OStatus => fun r => r = Norm (match first_code l with Some n => n | None => 0 end)
      | _ => fun _ => True
      end r
  | _ => True
  end.

(** the answers of Set, Get and GetMaybe *)
Definition env_rule l (e : event V) : Prop :=
  match e with
  | EvCall o r =>
      match o return outcome (ans o) -> Prop with
      | OSet n v => fun r =>
          match stored l n with None => r = Norm tt | Some _ => r = Throw (Some (L "double Environ: " ++ n)) end
      | OEnvPut n v => fun r => r = Norm tt
      | OGet n => fun r =>
          match stored l n with Some v => r = Norm v | None => r = Throw (Some (L "Environ not exist: " ++ n)) end
      | OGetMaybe n => fun r => r = Norm (stored l n)
      | _ => fun _ => True
      end r
  | _ => True
  end.

(** the answers of FullPath() *)
Definition path_rule (u : gostr) l (e : event V) : Prop :=
  match e with
  | EvCall o r =>
      match o return outcome (ans o) -> Prop with
      | OFullPath => fun r => r = Norm u
      | _ => fun _ => True
      end r
  | _ => True
  end.

(** Params as dispatch left them, after the assignments made since *)
Definition put_step (p : option Params) (e : event V) : option Params :=
  match e with EvCall (OParamPut k v) _ => (fun m => <[k := v]> m) <$> p | _ => p end.
Definition param_rule (p : option Params) l (e : event V) : Prop :=
  match e with
  | EvCall o r =>
      match o return outcome (ans o) -> Prop with
      | OParams => fun r => r = Norm (fold_left put_step l p)
      | OParamPut k v => fun r => r = match p with Some _ => Norm tt | None => Throw (Some (L "assignment to entry in nil map")) end
      | _ => fun _ => True
      end r
  | _ => True
  end.

(** the header as sent by a first ctx.Write of d *)
Definition guess (sniff : gostr -> gostr) (d : gostr) (h : header) : header :=
  if decide (d <> [] /\ h_get h (L "Content-Type") = []) then h_set h (L "Content-Type") (sniff d) else h.

(** what the underlying writer has been given, if the Context is not bypassed:
    nothing, or a response decided by the first call of WriteHeader or Write *)
Definition response sniff l (w : rwstate) : Prop :=
  (first_code l = None /\ sends l = [] /\ w = mkRw (headers_of l) None []) \/
  exists l1 o r l2, l = l1 ++ EvCall o r :: l2 /\ first_code l1 = None /\
    match o return outcome (ans o) -> Prop with
    | OWriteHeader n => fun r => sends l = [n] /\
        (proper_code n = true -> r = Norm tt /\ rw_sent w = Some (n, headers_of l1) /\
           rw_body w = if bears_body n then data_of l2 else [])
    | OWrite d => fun r => sends l = [200] /\
        r = Norm tt /\ rw_sent w = Some (200, guess sniff d (headers_of l1)) /\
        rw_body w = d ++ data_of l2
    | _ => fun _ => False
    end r.

End Spec.
