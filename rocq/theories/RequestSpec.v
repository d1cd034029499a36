(** Specification of what handlers can read of the request, in terms of the log,
    and of the request headers in terms of the lines that were sent. *)
From Verif Require Import Base GoStr Strconv Tree Header Router Ctx TraceSpec BodySpec.
Local Open Scope Z_scope.

Section Inputs.
Context {V : Type}.
Variable parse_form : bool -> request -> gostr * bool -> gmap gostr (list gostr) * bool * gostr.
Implicit Types l : list (event V).

(** what is left of the body, and the form if it was parsed, after the calls in
    a log; reading consumes, parsing consumes once; a body that is closed gives nothing
    any more, unless it is memory *)
Definition in_step (r : request) (st : rbody * option (gmap gostr (list gostr))) (e : event V) :
    rbody * option (gmap gostr (list gostr)) :=
  let '(mkBody data how, form) := st in
  match e with
  | EvCall (OBodyRead n) _ => (mkBody (drop n data) how, form)
  | EvCall OBodyReadAll _ => (mkBody [] how, form)
  | EvCall OBodyClose _ => (match how with FMem => mkBody data FMem | _ => mkBody [] FClosed end, form)
  | EvCall (OBodySet d) _ => (mkBody d FMem, form)
  | EvCall OParseForm _ =>
      match form with
      | Some _ => st
      | None => let '(f, _, rest) := parse_form (is_multipart r) r (data, ends_well how) in (mkBody rest how, Some f)
      end
  | _ => st
  end.
Definition inputs (r : request) (body : rbody) l := fold_left (in_step r) l (body, None).

(** the answers: the request as it arrived, what is left of the body (as far as
    asked for), the form as parsed *)
Definition in_rule (r : request) (body : rbody) l (e : event V) : Prop :=
  match e with
  | EvCall o a =>
      match o return outcome (ans o) -> Prop with
      | ORequest => fun a => a = Norm r
      | OBodyRead n => fun a => a = Norm (take n (bd_data (fst (inputs r body l))))
      | OBodyReadAll => fun a => let '(mkBody data how) := fst (inputs r body l) in a = Norm (data, ends_well how)
      | OForm => fun a => a = Norm (snd (inputs r body l))
      | OParseForm => fun a =>
          match snd (inputs r body l) with
          | Some _ => a = Norm tt
          | None => let '(mkBody data how) := fst (inputs r body l) in
                    let '(_, ok, _) := parse_form (is_multipart r) r (data, ends_well how) in
                    if ok : bool then a = Norm tt else exists msg, a = Throw (Some (L (if is_multipart r then "parseMultipartForm error:" else "parseForm error:") ++ msg))
          end
      | _ => fun _ => True
      end a
  | _ => True
  end.

(** all that was read from the body *)
Definition taken (e : event V) : option gostr :=
  match e with
  | EvCall o a =>
      match o return outcome (ans o) -> option gostr with
      | OBodyRead _ => fun a => match a with Norm d => Some d | _ => None end
      | OBodyReadAll => fun a => match a with Norm (d, _) => Some d | _ => None end
      | _ => fun _ => None
      end a
  | _ => None
  end.
(** calls after which the body is another one *)
Definition replaces (e : event V) : Prop := match e with EvCall (OBodySet _) _ => True | _ => False end.
(** calls that may parse the form *)
Definition parses (e : event V) : Prop := match e with EvCall OParseForm _ => True | _ => False end.
(** calls that read the body; parsing the form counts if [forms] *)
Definition touches (forms : bool) (e : event V) : Prop :=
  match e with
  | EvCall (OBodyRead _) _ | EvCall OBodyReadAll _ => True
  | EvCall OParseForm _ => forms = true
  | _ => False
  end.
(** after Close the body is not read any more, unless it is replaced *)
Definition left_closed (forms : bool) l : Prop :=
  forall l1 a l2 e l3, l = l1 ++ EvCall OBodyClose a :: l2 ++ e :: l3 -> Forall (fun e => ~ replaces e) l2 -> ~ touches forms e.
(** calls other than reading after which there may be less of the body *)
Definition rebodies (e : event V) : Prop :=
  match e with EvCall (OBodySet _) _ | EvCall OParseForm _ | EvCall OBodyClose _ => True | _ => False end.
End Inputs.

(** ** Request headers *)
(** the header lines of a request as net/http collects them; it refuses requests
    with other bytes in names *)
Definition received (lines : list (gostr * gostr)) : header :=
  fold_left (fun h kv => h_add h (fst kv) (snd kv)) lines ∅.
(** RFC 7230: a name is made of these *)
Definition tchars : gostr :=
  L "!#$%&'*+-.^_`|~0123456789ABCDEFGHIJKLMNOPQRSTUVWXYZabcdefghijklmnopqrstuvwxyz".
Definition is_token (k : gostr) : Prop := Forall (fun a => a ∈ tchars) k.
(** names are compared without regard to case *)
Definition same_name (k k' : gostr) : Prop := map lower_byte k = map lower_byte k'.
(** [first_line lines k v]: v is the value of the first line with this name, and
    empty if there is none *)
Inductive first_line (k : gostr) : list (gostr * gostr) -> gostr -> Prop :=
  | first_none : first_line k [] []
  | first_this k' v lines : same_name k' k -> first_line k ((k', v) :: lines) v
  | first_later k' v lines w : ~ same_name k' k -> first_line k lines w -> first_line k ((k', v) :: lines) w.

(** one of the elements of a comma separated header line *)
Definition ows_trimmed (s t : gostr) : Prop :=
  exists l r, s = l ++ t ++ r /\ Forall (fun a => a = " "%char) l /\ Forall (fun a => a = " "%char) r.
Definition has_element (lines : list (gostr * gostr)) (k el : gostr) : Prop :=
  exists k' v pre s post t, (k', v) ∈ lines /\ same_name k' k /\ split_byte "," v = pre ++ s :: post /\ ows_trimmed s t /\ same_name t el.

(** ** Truth values in texts *)
Definition yes (s : gostr) : Prop := s ∈ [L "1"; L "t"; L "T"; L "true"; L "TRUE"; L "True"].
Definition no (s : gostr) : Prop := s ∈ [L "0"; L "f"; L "F"; L "false"; L "FALSE"; L "False"].
