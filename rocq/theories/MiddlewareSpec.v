(** Specification of the middleware: what Recovery, Logger and CORS promise. *)
From Verif Require Import Base GoStr Strconv Pattern Tree TreeSpec Header Router Ctx TraceSpec Engine EngineSpec Content Middleware.
Local Open Scope Z_scope.

Section Spec.
Context {A V : Type}.

(** operations that never panic, whatever the state *)
Definition safe (o : op V) : Prop :=
  match o with
  | OWriteHeader n | ORawWriteHeader n => 100 <= n <= 999
  | OFullPath | OParamPut _ _ | OSet _ _ | OGet _ | OEnvPut _ _ | OParseForm => False
  | _ => True
  end.

(** a handler that does not panic of itself and calls Next at most once
    (next = true) or never (next = false) *)
Fixpoint calm (next : bool) (p : prog V) : Prop :=
  match p with
  | PRet => True
  | PPanic _ => False
  | PDo o k => safe o /\ forall a, calm next (k a)
  | PNext k => next = true /\ calm false k
  | PTry b k => (calm next b /\ calm false (k None)) \/ (calm false b /\ calm next (k None))
  end.

(** the status that Recovery gives a response nobody made, by how the rest of the
    chain ended *)
Definition rescue (r : ending) : Z := match r with EThrow (Some _) => 500 | _ => 200 end.

(** the lines written to the log of the application *)
Definition logged (l : list (event V)) : list gostr :=
  omap (fun e => match e with EvCall (OLog s) _ => Some s | _ => None end) l.
(** after a panic with v, [text v] is added to the body and the line [note v] is
    logged; without one, neither *)
Definition reports (text note : gostr -> gostr) (r : ending) (l : list (event V)) : Prop :=
  data_of l = match r with EThrow (Some v) => text v | _ => [] end /\
  logged l = match r with EThrow (Some v) => [note v] | _ => [] end.

(** [rescued code hs k text note pre l]: in the log l, which follows the log pre, the
    handler at position k was started once, called Next, and whatever the rest of
    the chain did (r2), a response was made and no handler was started after it;
    [text v] is what the handler adds to the body after a panic with v and [note v]
    the line it logs. *)
Definition rescued (code : handler A -> prog V) (hs : list (handler A)) (k : nat) (text note : gostr -> gostr)
    (pre l : list (event V)) : Prop :=
  exists l1 l2 r2 l3 l4,
    l = l1 ++ EvStart k :: EvNext :: l2 ++ l3 ++ EvEnd k :: l4 /\
    k ∉ starts l1 /\ turns code hs l2 r2 /\ starts l3 = [] /\ starts l4 = [] /\
    first_code (pre ++ l) =
      Some (match first_code (pre ++ l1 ++ l2) with Some n => n | None => rescue r2 end) /\
    reports text note r2 l3.

(** ** CORS *)

(** v is the origin announced to a request from [origin]: the first entry of the
    list that is * or the origin itself, and nothing if there is none *)
Definition announced (origins : list gostr) (origin v : gostr) : Prop :=
  (exists l1 l2, origins = l1 ++ v :: l2 /\ (v = L "*" \/ v = origin) /\ L "*" ∉ l1 /\ origin ∉ l1) \/
  (v = [] /\ L "*" ∉ origins /\ origin ∉ origins).

(** the configured lists, or the defaults *)
Definition origins_of (cfg : CORSConfig) : list gostr :=
  if decide (AllowOrigins cfg = []) then [L "*"] else AllowOrigins cfg.
Definition methods_of (cfg : CORSConfig) : list gostr :=
  if decide (AllowMethods cfg = []) then [L "GET"; L "POST"; L "PUT"; L "PATCH"; L "DELETE"; L "HEAD"]
  else AllowMethods cfg.
(** a comma separated list as a header: absent if empty *)
Definition listed (l : list gostr) : list gostr := if decide (join (L ",") l = []) then [] else [join (L ",") l].

(** what a response says about the origin, for every request *)
Definition cors_origin (cfg : CORSConfig) (r : request) (h : header) : Prop :=
  (exists v, h_values h (L "Access-Control-Allow-Origin") = [v] /\
     announced (origins_of cfg) (h_get (rq_header r) (L "Origin")) v) /\
  h_values h (L "Access-Control-Allow-Credentials") = if AllowCredentials cfg then [L "true"] else [].
(** for an ordinary request *)
Definition cors_simple (cfg : CORSConfig) (r : request) (h : header) : Prop :=
  cors_origin cfg r h /\ h_values h (L "Vary") = [L "Origin"] /\
  h_values h (L "Access-Control-Expose-Headers") = listed (ExposeHeaders cfg).
(** for a preflight request *)
Definition cors_preflight (cfg : CORSConfig) (r : request) (h : header) : Prop :=
  cors_origin cfg r h /\
  h_values h (L "Vary") = [L "Origin"; L "Access-Control-Request-Method"; L "Access-Control-Request-Headers"] /\
  h_values h (L "Access-Control-Allow-Methods") = [join (L ",") (methods_of cfg)] /\
  h_values h (L "Access-Control-Allow-Headers") =
    (if decide (join (L ",") (AllowHeaders cfg) = [])
     then listed [h_get (rq_header r) (L "Access-Control-Request-Headers")] else [join (L ",") (AllowHeaders cfg)]) /\
  h_values h (L "Access-Control-Max-Age") = if decide (0 < MaxAge cfg) then [itoa (MaxAge cfg)] else [].

(** The same for a CORS that is not the first handler: [h0] is the header as the
    handlers before it left it, [h] what CORS makes of it. *)
Definition cors_origin_over (cfg : CORSConfig) (r : request) (h0 h : header) : Prop :=
  (exists v, h_values h (L "Access-Control-Allow-Origin") = [v] /\
     announced (origins_of cfg) (h_get (rq_header r) (L "Origin")) v) /\
  h_values h (L "Access-Control-Allow-Credentials") =
    if AllowCredentials cfg then [L "true"] else h_values h0 (L "Access-Control-Allow-Credentials").
Definition listed_over (l old : list gostr) : list gostr := if decide (join (L ",") l = []) then old else [join (L ",") l].
Definition cors_simple_over (cfg : CORSConfig) (r : request) (h0 h : header) : Prop :=
  cors_origin_over cfg r h0 h /\ h_values h (L "Vary") = h_values h0 (L "Vary") ++ [L "Origin"] /\
  h_values h (L "Access-Control-Expose-Headers") =
    listed_over (ExposeHeaders cfg) (h_values h0 (L "Access-Control-Expose-Headers")) /\
  forall k, canon k ∉ [L "Vary"; L "Access-Control-Allow-Origin"; L "Access-Control-Allow-Credentials"; L "Access-Control-Expose-Headers"] ->
    h_values h k = h_values h0 k.
Definition cors_preflight_over (cfg : CORSConfig) (r : request) (h0 h : header) : Prop :=
  cors_origin_over cfg r h0 h /\
  h_values h (L "Vary") =
    h_values h0 (L "Vary") ++ [L "Origin"; L "Access-Control-Request-Method"; L "Access-Control-Request-Headers"] /\
  h_values h (L "Access-Control-Allow-Methods") = [join (L ",") (methods_of cfg)] /\
  h_values h (L "Access-Control-Allow-Headers") =
    listed_over (AllowHeaders cfg)
      (listed_over [h_get (rq_header r) (L "Access-Control-Request-Headers")] (h_values h0 (L "Access-Control-Allow-Headers"))) /\
  h_values h (L "Access-Control-Max-Age") =
    (if decide (0 < MaxAge cfg) then [itoa (MaxAge cfg)] else h_values h0 (L "Access-Control-Max-Age")) /\
  forall k, canon k ∉ [L "Vary"; L "Access-Control-Allow-Origin"; L "Access-Control-Allow-Credentials";
      L "Access-Control-Allow-Methods"; L "Access-Control-Allow-Headers"; L "Access-Control-Max-Age"] ->
    h_values h k = h_values h0 k.

(** operations that leave a header alone *)
Definition spares (k : gostr) (o : op V) : Prop :=
  match o with
  | OHeaderSet k' _ | OHeaderAdd k' _ | OHeaderDel k' => canon k' <> canon k
  | _ => True
  end.

End Spec.
