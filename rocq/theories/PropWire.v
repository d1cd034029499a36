(** Connections that fail (C90), and replies after a failed encoding (C91) *)
From Verif Require Import Base GoStr Strconv Pattern Tree Header Router Ctx TraceSpec Content Wire WireSpec WireFacts WireHttp WireSim.
Local Open Scope Z_scope.

(** Write gives back what the connection said, about these very data. *)
Theorem C90_write {S} (u : writer S) sniff d x n ok x' :
  wWrite u sniff d x = (Norm (n, ok), x') ->
  used u (w_under x) [mkCall d n ok] (w_under x').
Proof. exact (wWrite_call u sniff d x n ok x'). Qed.
Print Assumptions C90_write.

(** Stream returns nil exactly if the reader ended without an error and no Write
    failed; then all that was read has arrived, and otherwise a prefix of it. *)
Theorem C90_stream {S} (u : writer S) recv sniff contentType reads eof x r x' :
  honest u recv ->
  wStream u sniff contentType reads eof x = (Norm r, x') ->
  exists calls, used u (w_under x) calls (w_under x') /\
    (r = true <-> eof = true /\ forall c, In c calls -> wc_ok c = true) /\
    (r = true -> recv (w_under x') = recv (w_under x) ++ concat reads) /\
    exists got, recv (w_under x') = recv (w_under x) ++ got /\ got `prefix_of` concat reads.
Proof.
  intros Hon E. destruct (wStream_used _ _ _ _ _ _ _ _ E) as (cs & all & U & W & ->). exists cs.
  pose proof (written_out_ok _ _ _ W (used_calls _ _ _ _ _ Hon U)) as Q.
  pose proof (used_recv _ _ _ _ _ Hon U) as R.
  split; [done|]. split; [|split].
  - rewrite andb_true_iff, Q. tauto.
  - intros [-> ->]%andb_true_iff. by rewrite R, (written_out_all _ _ W).
  - exists (concat (map taken cs)). split; [done|]. exact (written_out_prefix _ _ _ W).
Qed.
Print Assumptions C90_stream.

(** JSON returns nil exactly if the value has an encoding and the one Write of it
    succeeded; then the whole encoding has arrived, and otherwise a prefix of it,
    nothing if there is no encoding. *)
Theorem C90_json {S} (u : writer S) recv sniff code enc x r x' :
  honest u recv ->
  wJSON u sniff code enc x = (Norm r, x') ->
  exists calls got, used u (w_under x) calls (w_under x') /\
    recv (w_under x') = recv (w_under x) ++ got /\
    match enc with
    | None => r = false /\ calls = [] /\ got = []
    | Some d => (exists n, calls = [mkCall d n r]) /\ got `prefix_of` d /\ (r = true -> got = d)
    end.
Proof.
  intros Hon E. destruct (wJSON_used _ _ _ _ _ _ _ E) as (_ & _ & H). destruct enc as [d|].
  - destruct H as [n U]. exists [mkCall d n r], (take n d).
    pose proof (used_recv _ _ _ _ _ Hon U) as R. cbn in R. rewrite app_nil_r in R.
    destruct (used_calls _ _ _ _ _ Hon U _ (or_introl eq_refl)) as [A B]. cbn in A, B.
    split; [done|]. split; [done|]. split; [by exists n|]. split; [exists (drop n d); by rewrite take_drop|].
    intros ->. destruct (decide (n < length d)%nat) as [L1|L1]; [by specialize (B L1)|].
    rewrite take_ge; [done|lia].
  - destruct H as [-> U]. exists [], []. pose proof (used_recv _ _ _ _ _ Hon U) as R. done.
Qed.
Print Assumptions C90_json.

(** The same for XML, which writes in pieces. *)
Theorem C90_xml {S} (u : writer S) recv sniff code out ok x r x' :
  honest u recv ->
  wXML u sniff code out ok x = (Norm r, x') ->
  exists calls, used u (w_under x) calls (w_under x') /\
    (r = true <-> ok = true /\ forall c, In c calls -> wc_ok c = true) /\
    (r = true -> recv (w_under x') = recv (w_under x) ++ concat out) /\
    exists got, recv (w_under x') = recv (w_under x) ++ got /\ got `prefix_of` concat out.
Proof.
  intros Hon E. destruct (wXML_used _ _ _ _ _ _ _ _ E) as (cs & all & U & W & ->). exists cs.
  pose proof (written_out_ok _ _ _ W (used_calls _ _ _ _ _ Hon U)) as Q.
  pose proof (used_recv _ _ _ _ _ Hon U) as R.
  split; [done|]. split; [|split].
  - rewrite andb_true_iff, Q. tauto.
  - intros [-> ->]%andb_true_iff. by rewrite R, (written_out_all _ _ W).
  - exists (concat (map taken cs)). split; [done|]. exact (written_out_prefix _ _ _ W).
Qed.
Print Assumptions C90_xml.

(** String, Data and HTMLRaw write the data with one call, whatever comes of it. *)
Theorem C90_data {S} (u : writer S) recv sniff code contentType data x x' :
  honest u recv ->
  wData u sniff code contentType data x = (Norm tt, x') ->
  exists n ok, used u (w_under x) [mkCall data n ok] (w_under x') /\
    recv (w_under x') = recv (w_under x) ++ take n data.
Proof.
  intros Hon E. destruct (wData_used _ _ _ _ _ _ _ E) as (_ & n & ok & U). exists n, ok. split; [done|].
  pose proof (used_recv _ _ _ _ _ Hon U) as R. cbn in R. by rewrite app_nil_r in R.
Qed.
Print Assumptions C90_data.

(** With net/http, on a new connection: JSON panics exactly for a status outside
    100..999, and returns nil exactly if the status allows a body and the encoding
    fits. *)
Theorem C90_json_net_http {V} sniff code d (c : conn V) room :
  rw_sent (cn_rw c) = None -> d <> [] ->
  if (100 <=? code) && (code <=? 999)
  then exists x', wJSON http_writer sniff code (Some d) (fresh c room) =
                    (Norm (bears_body code && (length d <=? room)%nat), x') /\
       w_status x' = code /\
       fmap fst (rw_sent (cn_rw (fst (w_under x')))) = Some code /\
       arrived (w_under x') = arrived (c, room) ++ (if bears_body code then take room d else [])
  else exists v x', wJSON http_writer sniff code (Some d) (fresh c room) = (Throw v, x').
Proof. exact (wJSON_http sniff code d c room). Qed.
Print Assumptions C90_json_net_http.

(** While nothing fails, writing here is writing in the rest of the model. *)
Theorem C90_agrees {A V} sniff d (x x' : ctxobj A V) c c' room o :
  (length d <= room)%nat ->
  ctx_Write sniff d x c = (o, (x', c')) ->
  match o with
  | Norm _ => exists n ok, wWrite http_writer sniff d (view x c room) = (Norm (n, ok), view x' c' (room - n))
  | Throw v => wWrite http_writer sniff d (view x c room) = (Throw v, view x' c' room)
  end.
Proof. exact (view_Write sniff d x x' c c' room o). Qed.
Print Assumptions C90_agrees.

(** The same for the helpers: run over a connection with enough room, each has
    the effect on the response that it has in the rest of the model, whatever the
    handler does next. *)
Theorem C90_stream_agrees {A V} sniff parse_form next t ds eof w (x : ctxobj A V) c (k : bool -> prog V) :
  sim w x c -> (length (concat ds) <= room w)%nat ->
  match wStream http_writer sniff t ds eof w with
  | (Norm r, w') => exists x' c',
      pexec sniff parse_form next (Stream t ds r k) x c = pexec sniff parse_form next (k r) x' c' /\ sim w' x' c'
  | (Throw v, w') => exists x' c',
      (forall r, pexec sniff parse_form next (Stream t ds r k) x c = (EThrow v, (x', c'))) /\ sim w' x' c'
  end.
Proof. exact (sim_stream sniff parse_form next t ds eof w x c k). Qed.
Print Assumptions C90_stream_agrees.
Theorem C90_data_agrees {A V} sniff parse_form next n t d w (x : ctxobj A V) c (k : prog V) :
  sim w x c -> (length d <= room w)%nat ->
  match wData http_writer sniff n t d w with
  | (Norm _, w') => exists x' c',
      pexec sniff parse_form next (Data n t d k) x c = pexec sniff parse_form next k x' c' /\ sim w' x' c'
  | (Throw v, w') => exists x' c',
      pexec sniff parse_form next (Data n t d k) x c = (EThrow v, (x', c')) /\ sim w' x' c'
  end.
Proof. exact (sim_data sniff parse_form next n t d w x c k). Qed.
Print Assumptions C90_data_agrees.
Theorem C90_string_agrees {A V} sniff parse_form next n d w (x : ctxobj A V) c (k : prog V) :
  sim w x c -> (length d <= room w)%nat ->
  match wString http_writer sniff n d w with
  | (Norm _, w') => exists x' c',
      pexec sniff parse_form next (String_ n d k) x c = pexec sniff parse_form next k x' c' /\ sim w' x' c'
  | (Throw v, w') => exists x' c',
      pexec sniff parse_form next (String_ n d k) x c = (EThrow v, (x', c')) /\ sim w' x' c'
  end.
Proof. exact (sim_data sniff parse_form next n _ d w x c k). Qed.
Print Assumptions C90_string_agrees.
Theorem C90_htmlraw_agrees {A V} sniff parse_form next n d w (x : ctxobj A V) c (k : prog V) :
  sim w x c -> (length d <= room w)%nat ->
  match wHTMLRaw http_writer sniff n d w with
  | (Norm _, w') => exists x' c',
      pexec sniff parse_form next (HTMLRaw n d k) x c = pexec sniff parse_form next k x' c' /\ sim w' x' c'
  | (Throw v, w') => exists x' c',
      pexec sniff parse_form next (HTMLRaw n d k) x c = (EThrow v, (x', c')) /\ sim w' x' c'
  end.
Proof. exact (sim_data sniff parse_form next n _ d w x c k). Qed.
Print Assumptions C90_htmlraw_agrees.
Theorem C90_json_agrees {A V} sniff parse_form next n enc w (x : ctxobj A V) c (k : bool -> prog V) :
  sim w x c -> (match enc with Some d => length d | None => 0 end <= room w)%nat ->
  let out := match enc with Some d => [d] | None => [] end in
  match wJSON http_writer sniff n enc w with
  | (Norm r, w') => exists x' c',
      pexec sniff parse_form next (JSON n out r k) x c = pexec sniff parse_form next (k r) x' c' /\ sim w' x' c'
  | (Throw v, w') => exists x' c',
      (forall r, pexec sniff parse_form next (JSON n out r k) x c = (EThrow v, (x', c'))) /\ sim w' x' c'
  end.
Proof. exact (sim_json sniff parse_form next n enc w x c k). Qed.
Print Assumptions C90_json_agrees.
Theorem C90_xml_agrees {A V} sniff parse_form next n out ok w (x : ctxobj A V) c (k : bool -> prog V) :
  sim w x c -> (length (concat out) <= room w)%nat -> (forall d, In d out -> d <> []) ->
  match wXML http_writer sniff n out ok w with
  | (Norm r, w') => exists x' c',
      pexec sniff parse_form next (XML n out r k) x c = pexec sniff parse_form next (k r) x' c' /\ sim w' x' c'
  | (Throw v, w') => exists x' c',
      (forall r, pexec sniff parse_form next (XML n out r k) x c = (EThrow v, (x', c'))) /\ sim w' x' c'
  end.
Proof. exact (sim_xml sniff parse_form next n out ok w x c k). Qed.
Print Assumptions C90_xml_agrees.

(** net/http keeps the contract *)
Theorem C90_net_http_honest {V} : honest (http_writer (V := V)) arrived.
Proof. exact http_honest. Qed.
Print Assumptions C90_net_http_honest.

(** ** Replies after a failed encoding *)

(** If JSON returns an error, the handler cannot answer with another status
    instead: the status is already sent. *)
Theorem C91_other_status_refuted :
  exists (c : conn unit) sniff x' x'',
    wJSON http_writer sniff 200 None (fresh c 100) = (Norm false, x') /\
    wWriteHeader http_writer 500 x' = (Norm tt, x'') /\
    fmap fst (rw_sent (cn_rw (fst (w_under x'')))) = Some 200 /\ w_status x'' = 200.
Proof.
  exists (mkConn (mkReq (L "GET") 1 1 (L "/") (L "/") ∅ [] false) rw_new (mkBody [] FMem) None []), (fun _ => []).
  eexists _, _. split; [vm_compute; reflexivity|]. split; [vm_compute; reflexivity|]. split; vm_compute; reflexivity.
Qed.
Print Assumptions C91_other_status_refuted.

(** The first status given stays, for JSON as for everything before it, and a
    value without encoding sends nothing of a body. *)
Theorem C91_first_status_partial {S} (u : writer S) recv sniff code enc x x' :
  honest u recv ->
  wJSON u sniff code enc x = (Norm false, x') ->
  w_written x' = true /\
  w_status x' = (if w_written x then w_status x else code) /\
  (forall code', wWriteHeader u code' x' = (Norm tt, x')) /\
  (enc = None -> recv (w_under x') = recv (w_under x)).
Proof.
  intros Hon E. destruct (wJSON_used _ _ _ _ _ _ _ E) as (A & B & H).
  split; [done|]. split; [done|]. split; [intros code'; unfold wWriteHeader; by rewrite A|].
  intros ->. destruct H as [_ U]. rewrite (used_recv _ _ _ _ _ Hon U). cbn. by rewrite app_nil_r.
Qed.
Print Assumptions C91_first_status_partial.

(** ** A case: a connection with room for three bytes *)
Definition vx_conn : conn unit := mkConn (mkReq (L "GET") 1 1 (L "/") (L "/") ∅ [] false) rw_new (mkBody [] FMem) None [].
Example C90_case :
  let r := wStream http_writer (fun _ => []) (L "text/plain") [L "ab"; []; L "cd"; L "ef"] true (fresh vx_conn 3) in
  fst r = Norm false /\ arrived (w_under (snd r)) = L "abc".
Proof. split; vm_compute; reflexivity. Qed.
Example C90_case_ok :
  let r := wStream http_writer (fun _ => []) (L "text/plain") [L "ab"; []; L "cd"] true (fresh vx_conn 9) in
  fst r = Norm true /\ arrived (w_under (snd r)) = L "abcd".
Proof. split; vm_compute; reflexivity. Qed.
Example C90_case_json :
  let r := wJSON http_writer (fun _ => []) 204 (Some (L "{}")) (fresh vx_conn 9) in
  fst r = Norm false /\ arrived (w_under (snd r)) = [].
Proof. split; vm_compute; reflexivity. Qed.
Example C90_case_xml :
  let r := wXML http_writer (fun _ => []) 200 [L "<a"; L ">"] false (fresh vx_conn 9) in
  fst r = Norm false /\ arrived (w_under (snd r)) = L "<a>".
Proof. split; vm_compute; reflexivity. Qed.
Example C90_case_sim : sim (fresh vx_conn 9) (newContext (A := unit) (V := unit)) vx_conn /\ room (fresh vx_conn 9) = 9%nat.
Proof. repeat split. Qed.
