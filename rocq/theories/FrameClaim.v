(** What is claimed of the replies of a server on a connection. *)
From Coq Require Import ZArith NArith.
From Verif Require Import Base GoStr UtilSpec Header RequestSpec Router Ctx Engine NetFrame FrameSpec.
Local Open Scope Z_scope.

Section Claim.
Variable has_token : gostr -> gostr -> bool.
Variable sniff : gostr -> gostr.
Definition asks_head (e : exchange) : bool := bool_decide (rq_method (ex_request e) = L "HEAD").
(** the response of an exchange, as the other properties have it: a status from 200 to
    999, a body where the status lets it have one, and a Content-Length, if any, that is
    the length of the body *)
Definition sound (e : exchange) : Prop :=
  one_line (ex_date e) /\
  forall code h body, finish sniff (ex_response e) = (code, h, body) ->
    200 <= code <= 999 /\ (~ bodiless false code -> concat (ex_pieces e) = body) /\ plain_header h /\ declares (asks_head e) code h (length body) /\ (bodiless false code -> body = []).
(** The message that a client read is the reply of an exchange.  Date, Content-Length,
    Connection and Transfer-Encoding are the server's; status 304 takes no Content-Type. *)
Definition is_reply (e : exchange) (m : Z * list (gostr * gostr) * gostr) : Prop :=
  forall code h body, finish sniff (ex_response e) = (code, h, body) ->
    exists fs, m = (code, fs, if asks_head e then [] else body) /\
      forall k, is_token k -> canon k ∉ hop_names -> (code = 304 -> canon k <> L "Content-Type") ->
        Forall2 line_of (h_values h k) (field_values k fs).
(** nobody asks to close the connection *)
Definition stays_open (e : exchange) : Prop :=
  rq_major (ex_request e) = 1%nat /\ rq_minor (ex_request e) = 1%nat /\
  has_token (h_get (rq_header (ex_request e)) (L "Connection")) (L "close") = false /\ ex_unread e = false /\
  forall code h body, finish sniff (ex_response e) = (code, h, body) -> h_get h (L "Connection") <> L "close".
End Claim.

(** ** Handlers *)
Section Handlers.
Context {V : Type}.
(** the data of the calls of Write, in order *)
Definition pieces (l : list (event V)) : list gostr := flat_map (fun e => match e with EvData d => [d] | _ => [] end) l.
(** Handlers that give their headers proper names, none of them in ks, and whose status
    is not an interim one. *)
Definition leaves (ks : list gostr) (o : op V) : Prop :=
  match o with
  | OHeaderSet k _ | OHeaderAdd k _ => field_name k /\ canon k ∉ ks
  | OWriteHeader n | ORawWriteHeader n => ~ (100 <= n <= 199)
  | _ => True
  end.
(** handlers that leave the framing to the server *)
Definition polite : op V -> Prop := leaves [L "Transfer-Encoding"; L "Trailer"; L "Content-Length"].
(** handlers that may announce the length of the body *)
Definition proper : op V -> Prop := leaves [L "Transfer-Encoding"; L "Trailer"].
(** an exchange: a request that ServeHTTP has served *)
Definition served {A : Type} (re_find : gostr -> gostr -> option (list gostr)) (sniff : gostr -> gostr)
    (parse_form : bool -> request -> gostr * bool -> gmap gostr (list gostr) * bool * gostr) (code : handler A -> prog V) (ex : exchange) : Prop :=
  exists e id x r body px c' d u, ServeHTTP re_find sniff parse_form code e id x (arrive r body) = (EDone, px, c') /\ one_line d /\
    ex = mkExchange r d u (cn_rw c') (pieces (cn_log c')).
End Handlers.
