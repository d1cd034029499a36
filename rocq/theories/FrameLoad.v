(** Downloads and attachments as clients read them from a connection. *)
From Coq Require Import ZArith NArith.
From Verif Require Import Base GoStr Strconv UtilSpec Header RequestSpec Pattern Tree TreeSpec Router RouterSpec PathClean Ctx CtxFacts Util Getters Content TraceSpec Engine EngineSpec
  ServeThms NetServe CondSpec NetFile NetRange RangeSpec NetRangeFacts RangeTop HelperSpec HelperLog
  NetFrame FrameSpec FrameClaim FrameRead FrameFacts FrameTop FrameSend FrameCut FrameConn FrameRun FrameFile.
Local Open Scope Z_scope.

Section Proper.
Context {V F : Type}.
Variable serve : request -> gostr -> gostr -> gostr -> F -> list (gostr * option gostr) * Z * list gostr.
Hypothesis serve_ok : forall r t etag enc f, fair (serve r t etag enc f).
Lemma put_lit k v : bool_decide ((k <> [] /\ is_token k) /\ canon k ∉ [L "Transfer-Encoding"; L "Trailer"]) = true -> proper (V:=V) (OHeaderSet k v).
Proof. exact (fine_lit k v). Qed.
Ltac sets := repeat first [apply List.Forall_nil | apply List.Forall_cons; [apply put_lit; vm_compute; reflexivity|]].
Lemma attachment_proper name inline f (k : prog V) : only proper k -> only proper (Attachment serve name inline f k).
Proof. intros Hk. apply only_seqp; [sets|]. by apply content_proper. Qed.
Lemma download_proper nf inline (k : bool -> prog V) : (forall b, only proper (k b)) -> only proper (Download serve nf inline k).
Proof. intros Hk. destruct nf as [[name f]|]; [|apply Hk]. apply only_seqp; [sets|]. by apply content_proper. Qed.
End Proper.

Section Load.
Context {A V F : Type}.
Variable re_ok : gostr -> bool.
Variable re_find : gostr -> gostr -> option (list gostr).
Variable sniff : gostr -> gostr.
Variable parse_form : bool -> request -> gostr * bool -> gmap gostr (list gostr) * bool * gostr.
Variable code : handler A -> prog V.
Variable parse_time : gostr -> option Z.
Variable modtime : F -> option Z.
Variable http_date : Z -> gostr.
Variable strict : bool.
Variable content : F -> gostr.
Variable ctype : F -> gostr.
Variable bnd : gostr.
Variable has_token : gostr -> gostr -> bool.
Variable status_text : Z -> option gostr.
Variable keep : bool.
Variable sz : nat.
Hypothesis text_line : forall n t, status_text n = Some t -> bare t.
Hypothesis sniff_line : forall d, one_line (sniff d).
Hypothesis sniff_window : forall a b, (sz <= length a)%nat -> sniff (a ++ b) = sniff a.
Hypothesis code_proper : forall h, only proper (code h).
Theorem attachment_read ops r0 opts (e : engine A) id x r body px c' (download : bool) name inline f k i l1 l2 d u :
  engine_of re_ok ops r0 opts e ->
  ServeHTTP re_find sniff parse_form code e id x (arrive r body) = (EDone, px, c') -> uses_ctx code e ->
  let serve := net_serve parse_time modtime http_date (net_send strict content ctype bnd) in
  (forall hs, dispatched re_ok re_find e r hs -> exists g, hs !! i = Some g /\
     code g = if download then Download serve (Some (name, f)) inline (fun _ => k) else Attachment serve name inline f k) ->
  cn_log c' = l1 ++ EvStart i :: l2 -> ~ responded l1 ->
  unconditional (h_get (rq_header r)) -> h_get (rq_header r) (L "Range") = [] ->
  h_get (headers_of l1) (L "Content-Encoding") = [] -> h_values (headers_of l1) (L "Content-Type") = [] ->
  let t := if download then L "application/octet-stream" else ctype f in
  let ex := mkExchange r d u (cn_rw c') (pieces (cn_log c')) in
  one_line d -> one_line t -> Z.of_nat (length (content f)) < 2 ^ 63 ->
  (length (rw_body (cn_rw c')) <= if asks_head ex then 0 else length (content f))%nat ->
  sound sniff ex /\
  exists fs, field_values (L "Content-Type") fs = [t] /\
    forall ms, reads_all [asks_head ex] (connection has_token status_text sniff keep sz [ex]) ms <-> ms = [(200, fs, if asks_head ex then [] else content f)].
Proof.
  intros He H Hu serve Hg Hlog Hn Huc Hrg Hce Hct t ex Hd Ht Hsz Hlen.
  destruct (attachment_ranges re_ok re_find sniff parse_form code parse_time modtime http_date strict content ctype bnd
    _ _ _ _ _ _ _ _ _ _ _ download name inline f k i l1 l2 He H Hu Hg Hlog Hn Huc Hce Hct) as (n & hd & m & l3 & out & _ & _ & Hr & Hb & _ & [D _] & _).
  destruct (D Hrg) as (b & (-> & -> & Htt & _ & z & Hz & Hl) & Hout).
  assert (rw_body (cn_rw c') = out) as Hbo.
  { rewrite Hb in Hlen |- *. rewrite app_length in Hlen. change (asks_head ex) with (bool_decide (rq_method r = L "HEAD")) in Hlen. rewrite Hout in Hlen |- *.
    destruct (data_of l3); [apply app_nil_r|]. destruct (bool_decide _); cbn [length] in Hlen; lia. }
  pose proof (typed_finish sniff _ _ _ _ Hr Htt) as Hf.
  assert (sound sniff ex) as Hs.
  { apply (proper_sound sniff parse_form re_find code); [done| |].
    - exists e, id, x, r, body, px, c', d, u. done.
    - cbn [ex_response ex]. intros n1 h1 b1 Hf1. rewrite Hf in Hf1. injection Hf1 as <- <- <-. right. exists z, (Z.of_nat (length (content f))).
      rewrite Hbo, Hout. change (asks_head ex) with (bool_decide (rq_method r = L "HEAD")). destruct (bool_decide _) eqn:E; cbn [length].
      + split_and!; [done|done|lia|lia|]. right. by left.
      + split_and!; [done|done|lia|lia|]. by left. }
  split; [done|].
  destruct (one_exchange sniff has_token status_text keep sz text_line sniff_line sniff_window ex _ _ _ Hs Hf) as (fs & Hrd & Hfs). exists fs. split.
  - specialize (Hfs (L "Content-Type")).
    assert (Forall2 line_of [t] (field_values (L "Content-Type") fs)) as H2.
    { unfold has in Htt. fold t in Htt. rewrite <- Htt. apply Hfs; [apply (bool_decide_eq_true _); vm_compute; reflexivity|apply (bool_decide_eq_true _); vm_compute; reflexivity|done]. }
    inversion H2 as [|? l ? ls Hl1 Hls]; subst. inversion Hls; subst. f_equal. by apply line_of_id.
  - assert ((if asks_head ex then [] else rw_body (cn_rw c')) = if asks_head ex then [] else content f) as E.
    { rewrite Hbo, Hout. change (asks_head ex) with (bool_decide (rq_method r = L "HEAD")). by destruct (bool_decide _). }
    rewrite E in Hrd. intros ms. split; [|by intros ->]. intros Hms. by eapply reads_all_one.
Qed.
End Load.
