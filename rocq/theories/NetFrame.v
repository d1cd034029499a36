(** How the server of package net/http (Go 1.15, not in /repo) turns what handlers wrote
    into the bytes of a reply: server.go response.write, chunkWriter and finishRequest,
    header.go writeSubset, and bufio.Writer between them.  Every reply of water goes
    through it (engine.go:214-253 is called by it, context.go:72-91 writes to it).
    Simplifications: Flush, Hijack, sendfile and trailers are left out (replies that
    announce trailers get none); writing to the client never fails; requests are
    HTTP/1.x. *)
From Coq Require Import ZArith.
From Verif Require Import Base GoStr Strconv Header Router Ctx NetServe.
Local Open Scope Z_scope.

Definition crlf : gostr := ["013"; "010"]%char.
(** header.go headerNewlineToSpace and textproto.TrimString, as writeSubset uses them *)
Definition newline_to_space (a : ascii) : ascii := if Ascii.eqb a "010" || Ascii.eqb a "013" then " "%char else a.
Definition clean (v : gostr) : gostr := TrimString (map newline_to_space v).

(** header.go sortedKeyValues: by the bytes of the names *)
Fixpoint bytes_le (a b : gostr) : bool :=
  match a, b with
  | [], _ => true
  | _ :: _, [] => false
  | x :: a, y :: b => (N_of_ascii x <? N_of_ascii y)%N || (N_of_ascii x =? N_of_ascii y)%N && bytes_le a b
  end.
Fixpoint insert_key (x : gostr * list gostr) (l : list (gostr * list gostr)) : list (gostr * list gostr) :=
  match l with
  | [] => [x]
  | y :: l' => if bytes_le (fst x) (fst y) then x :: l else y :: insert_key x l'
  end.
Definition sorted_keys (h : header) : list (gostr * list gostr) := fold_right insert_key [] (map_to_list h).
(** header.go writeSubset: the lines of a header but for the names in [out] *)
Definition header_fields (out : list gostr) (h : header) : list (gostr * gostr) :=
  flat_map (fun kv => if existsb (seqb (fst kv)) out then [] else map (fun v => (fst kv, clean v)) (snd kv)) (sorted_keys h).
Definition field_line (f : gostr * gostr) : gostr := fst f ++ L ": " ++ snd f ++ crlf.

Section Frame.
(** header.go hasToken; status.go statusText; the text of the present time *)
Variable has_token : gostr -> gostr -> bool.
Variable status_text : Z -> option gostr.
Variable date : gostr.
(** http.DetectContentType *)
Variable sniff : gostr -> gostr.
(** Server.doKeepAlives; whether the server gives up the connection because the body of
    the request has not been read (chunkWriter.writeHeader, the part about 100-continue
    and the part about unread bodies) *)
Variables keep unread : bool.
(** the size of the buffer of a response: bufferBeforeChunkingSize, 2048 *)
Variable size : nat.
Variable r : request.

Definition is_head : bool := seqb (rq_method r) (L "HEAD").
(** request.go ProtoAtLeast(1, 1) *)
Definition at_least_11 : bool := (1 <? rq_major r)%nat || (rq_major r =? 1)%nat && (1 <=? rq_minor r)%nat.
(** request.go wantsHttp10KeepAlive, wantsClose *)
Definition wants_10_keep : bool :=
  (rq_major r =? 1)%nat && (rq_minor r =? 0)%nat && has_token (h_get (rq_header r) (L "Connection")) (L "keep-alive").
Definition wants_close : bool := has_token (h_get (rq_header r) (L "Connection")) (L "close").

(** transfer.go suppressedHeaders *)
Definition suppressedHeaders (code : Z) : list gostr :=
  if (code =? 304) then [L "Content-Type"; L "Content-Length"; L "Transfer-Encoding"]
  else if body_allowed code then [] else [L "Content-Length"; L "Transfer-Encoding"].

(** server.go response.WriteHeader: the Content-Length that a handler declared *)
Definition declared (h : header) : option Z :=
  match h_get h (L "Content-Length") with
  | [] => None
  | v => match parse_int 64 v with (n, ErrNone) => if (0 <=? n) then Some n else None | _ => None end
  end.

Record framing := mkFraming {
  fr_fields : list (gostr * gostr);   (* the lines of the header *)
  fr_length : option Z;               (* response.contentLength *)
  fr_chunking : bool;
  fr_close : bool                     (* response.closeAfterReply *)
}.
(** server.go chunkWriter.writeHeader(p); [done]: the handler has returned.  The branch
    for 204 is not there since no body is allowed then. *)
Definition writeHeader (code : Z) (h : header) (limit : option Z) (done : bool) (p : gostr) : framing :=
  let te := h_get h (L "Transfer-Encoding") in
  let hasTE := negb (seqb te []) in
  let trailers := negb (length (h_values h (L "Trailer")) =? 0)%nat || existsb (fun kv => has_prefix (L "Trailer:") (fst kv)) (map_to_list h) in
  let auto := done && negb trailers && negb hasTE && body_allowed code && seqb (h_get h (L "Content-Length")) [] &&
              (negb is_head || negb (seqb p [])) in
  let len := if auto then Some (Z.of_nat (length p)) else limit in
  let hasCL := match len with Some _ => true | None => false end in
  let stays := wants_10_keep && (is_head || hasCL || negb (body_allowed code)) in
  let connection := if stays && bool_decide (h !! L "Connection" = None) then [(L "Connection", L "keep-alive")] else [] in
  let close := negb stays && (negb at_least_11 || wants_close) || seqb (h_get h (L "Connection")) (L "close") || negb keep || unread in
  let ctype := if body_allowed code && seqb (h_get h (L "Content-Encoding")) [] && bool_decide (h !! L "Content-Type" = None) &&
                  negb hasTE && negb (seqb p [])
               then [(L "Content-Type", sniff p)] else [] in
  let dels := if body_allowed code then [] else suppressedHeaders code in
  let both := hasCL && hasTE && negb (seqb te (L "identity")) in
  let dels := if both then L "Content-Length" :: dels else dels in
  let hasCL := hasCL && negb both in
  let '(chunking, close, dels) :=
    if is_head || negb (body_allowed code) then (false, close, dels)
    else if hasCL then (false, close, L "Transfer-Encoding" :: dels)
    else if at_least_11 then
      if hasTE && seqb te (L "identity") then (false, true, dels)
      else (true, close, if seqb te (L "chunked") then L "Transfer-Encoding" :: dels else dels)
    else (false, true, L "Transfer-Encoding" :: dels) in
  let dels := if chunking then L "Content-Length" :: dels else dels in
  let again := close && (negb keep || negb (has_token (h_get h (L "Connection")) (L "close"))) in
  let dels := if again then L "Connection" :: dels else dels in
  let connection := if again && at_least_11 then [(L "Connection", L "close")] else connection in
  mkFraming
    (header_fields dels h ++
     (if bool_decide (h !! L "Date" = None) then [(L "Date", date)] else []) ++
     (if auto then [(L "Content-Length", itoa (Z.of_nat (length p)))] else []) ++
     ctype ++ connection ++ (if chunking then [(L "Transfer-Encoding", L "chunked")] else []))
    len chunking close.

(** server.go writeStatusLine *)
Definition status_line (code : Z) : gostr :=
  (if at_least_11 then L "HTTP/1.1 " else L "HTTP/1.0 ") ++
  match status_text code with
  | Some t => itoa code ++ L " " ++ t
  | None => itoa code ++ L " status code " ++ itoa code
  end ++ crlf.
Definition head_bytes (code : Z) (fr : framing) : gostr :=
  status_line code ++ flat_map field_line (fr_fields fr) ++ crlf.

(** server.go response.write: the pieces that a declared length leaves room for *)
Fixpoint admitted (limit : option Z) (written : Z) (ps : list gostr) : list gostr :=
  match ps with
  | [] => []
  | p :: ps =>
      if seqb p [] then admitted limit written ps
      else let written := written + Z.of_nat (length p) in
           if match limit with Some n => n <? written | None => false end then admitted limit written ps
           else p :: admitted limit written ps
  end.
(** bufio.Writer.Write: what is in the buffer, and what has been passed on, in pieces *)
Definition buf_write (st : gostr * list gostr) (p : gostr) : gostr * list gostr :=
  let '(buf, out) := st in
  let n := (size - length buf)%nat in
  if (length p <=? n)%nat then (buf ++ p, out)
  else match buf with
       | [] => ([], out ++ [p])
       | _ => let q := drop n p in
              if (length q <=? size)%nat then (q, out ++ [buf ++ take n p]) else ([], out ++ [buf ++ take n p; q])
       end.
Definition buffered (ps : list gostr) : gostr * list gostr := fold_left buf_write ps ([], []).
(** server.go chunkWriter.Write when chunking *)
Definition chunk (p : gostr) : gostr := format_N 16 (N.of_nat (length p)) ++ crlf ++ p ++ crlf.

(** the status and the header of a response (response.finishRequest: 200 if there is none) *)
Definition response_head (w : rwstate) : Z * header :=
  match rw_sent w with Some s => s | None => (200, rw_hdr w) end.
(** The bytes of a reply, and whether the connection is closed behind it
    (response.finishRequest, shouldReuseConnection).  [ps] are the pieces in which the
    body was written. *)
Definition answer (w : rwstate) (ps : list gostr) : gostr * bool :=
  let '(code, h) := response_head w in
  let limit := declared h in
  let '(late, early) := buffered (if body_allowed code then admitted limit 0 ps else []) in
  let fr := match early with e :: _ => writeHeader code h limit false e | [] => writeHeader code h limit true late end in
  let data := early ++ (if seqb late [] then [] else [late]) in
  (head_bytes code fr ++
     (if is_head then [] else if fr_chunking fr then flat_map chunk data ++ L "0" ++ crlf ++ crlf else concat data),
   fr_close fr || negb is_head && body_allowed code &&
     match fr_length fr with Some n => negb (n =? Z.of_nat (length (concat ps))) | None => false end).
(** The bytes of a reply whose handler panicked, and nothing recovered it: the server
    closes the connection (conn.serve), what is still in the buffer is lost. *)
Definition torn (w : rwstate) (ps : list gostr) : gostr :=
  let '(code, h) := response_head w in
  let limit := declared h in
  let '(late, early) := buffered (if body_allowed code then admitted limit 0 ps else []) in
  match early with
  | [] => []
  | e :: _ =>
      let fr := writeHeader code h limit false e in
      head_bytes code fr ++ (if is_head then [] else if fr_chunking fr then flat_map chunk early else concat early)
  end.
End Frame.

(** ** A connection *)
(** what differs between the requests of a connection *)
Record exchange := mkExchange {
  ex_request : request;
  ex_date : gostr;
  ex_unread : bool;
  ex_response : rwstate;
  ex_pieces : list gostr
}.
Section Connection.
Variable has_token : gostr -> gostr -> bool.
Variable status_text : Z -> option gostr.
Variable sniff : gostr -> gostr.
Variable keep : bool.
Variable size : nat.
Definition ex_answer (e : exchange) : gostr * bool :=
  answer has_token status_text (ex_date e) sniff keep (ex_unread e) size (ex_request e) (ex_response e) (ex_pieces e).
(** server.go conn.serve: one request after the other, until a reply closes the
    connection.  The requests that are answered, and the bytes that are sent. *)
Fixpoint answered (es : list exchange) : list exchange :=
  match es with
  | [] => []
  | e :: es => e :: if snd (ex_answer e) then [] else answered es
  end.
Fixpoint connection (es : list exchange) : gostr :=
  match es with
  | [] => []
  | e :: es => fst (ex_answer e) ++ if snd (ex_answer e) then [] else connection es
  end.
End Connection.
