(** Static files as clients read them from a connection. *)
From Coq Require Import ZArith NArith.
From Verif Require Import Base GoStr Strconv UtilSpec Header RequestSpec Pattern Tree TreeSpec Router RouterSpec PathClean Ctx CtxFacts Util Getters Content TraceSpec Engine EngineSpec
  ServeThms StaticReg Static StaticSpec StaticFacts StaticTop NetServe CondSpec NetFile NetRange RangeSpec NetRangeFacts RangeTop
  NetFrame FrameSpec FrameClaim FrameRead FrameFacts FrameTop FrameSend FrameCut FrameConn FrameRun.
Local Open Scope Z_scope.

Section Proper.
Context {V : Type}.
Lemma only_seqp (P : op V -> Prop) os k : Forall P os -> only P k -> only P (seqp os k).
Proof. intros H Hk. induction H as [|o os Ho H IH]; [exact Hk|]. cbn. split; [done|]. intros _. exact IH. Qed.
(** a header that may be set *)
Definition fine (kv : gostr * option gostr) : Prop :=
  match kv.2 with Some _ => field_name kv.1 /\ canon kv.1 ∉ [L "Transfer-Encoding"; L "Trailer"] | None => True end.
Lemma fine_lit k v : bool_decide ((k <> [] /\ is_token k) /\ canon k ∉ [L "Transfer-Encoding"; L "Trailer"]) = true -> fine (k, Some v).
Proof. intros H%bool_decide_eq_true. exact H. Qed.
Definition fair (a : list (gostr * option gostr) * Z * list gostr) : Prop := Forall fine a.1.1 /\ ~ (100 <= a.1.2 <= 199).
Lemma deliver_proper raw a k : fair a -> only proper k -> only proper (deliver (V:=V) raw a k).
Proof.
  destruct a as [[hs n] out]. intros [Hf Hn] Hk. cbn [fst snd] in Hf, Hn. apply only_seqp; [|done]. apply Forall_app. split; [|apply Forall_app; split].
  - induction Hf as [|[key [v|]] hs H Hf IH]; [constructor|constructor; [exact H|exact IH]|constructor; [exact I|exact IH]].
  - constructor; [|constructor]. by destruct raw.
  - induction out; constructor; [by destruct raw|done].
Qed.
Context {F O : Type}.
Variable location : request -> gostr -> gostr.
Variable page : request -> gostr -> Z -> gostr.
Variable serve : request -> gostr -> gostr -> gostr -> F -> list (gostr * option gostr) * Z * list gostr.
Variable serve_file : request -> gostr -> gostr -> gostr -> gostr -> O -> list (gostr * option gostr) * Z * list gostr.
Lemma set_proper k v (p : prog V) : fine (k, Some v) -> only proper p -> only proper (SetHeader k v p).
Proof. intros H Hp. apply only_seqp; [|done]. constructor; [exact H|constructor]. Qed.
Lemma content_proper raw f (k : prog V) : (forall r t etag enc f, fair (serve r t etag enc f)) -> only proper k -> only proper (ServeContent serve raw f k).
Proof. intros H Hk. cbn. split; [done|]. intros r. split; [done|]. intros t. split; [done|]. intros etag. split; [done|]. intros enc. by apply deliver_proper. Qed.
Lemma static_proper o open os : (forall r t etag enc f, fair (serve r t etag enc f)) -> (forall r t etag enc p os, fair (serve_file r t etag enc p os)) ->
  only proper (static_handler (V:=V) location page serve serve_file o open os).
Proof.
  intros Hs Hf. unfold static_handler. cbn [only]. split; [exact I|]. intros p. destruct (Params_String _ _) as [name|m|]; [|exact I|exact I].
  unfold static_named.
  assert (forall p : prog V, only proper p -> only proper (match so_expires o with Some v => SetHeader (L "Expires") v p | None => p end)) as He.
  { intros q Hq. destruct (so_expires o); [|done]. apply set_proper; [|done]. apply fine_lit. vm_compute. reflexivity. }
  assert (forall n : Z, ~ (100 <= n <= 199) -> only proper (seqp (V:=V) [OWriteHeader n] PRet)) as Hw.
  { intros n Hn. apply only_seqp; [|exact I]. constructor; [exact Hn|constructor]. }
  destruct (open name) as [| | |mtime sz base f]; [apply Hw; lia|apply Hw; lia|apply He|apply He].
  - split; [exact I|]. intros r. destruct (negb _).
    + split; [exact I|]. intros r1. split; [exact I|]. intros t. apply only_seqp; [|exact I]. apply Forall_app. split.
      { constructor; [|constructor]. refine (fine_lit (L "Location") [] _). vm_compute. reflexivity. }
      apply Forall_app. split; [|apply Forall_app; split].
      * destruct (_ && _); constructor; [|constructor]. refine (fine_lit (L "Content-Type") [] _). vm_compute. reflexivity.
      * constructor; [|constructor]. cbn. lia.
      * destruct (_ && _); constructor; [exact I|constructor].
    + split; [exact I|]. intros r1. split; [exact I|]. intros t. split; [exact I|]. intros etag. split; [exact I|]. intros enc. apply deliver_proper; [apply Hf|exact I].
  - destruct (_ =? _)%nat; [by apply content_proper|]. apply set_proper; [apply fine_lit; vm_compute; reflexivity|].
    split; [exact I|]. intros r. destruct (seqb _ _); [apply Hw; lia|by apply content_proper].
Qed.
End Proper.

Section Net.
Context {F : Type}.
Variable parse_time : gostr -> option Z.
Variable modtime : F -> option Z.
Variable http_date : Z -> gostr.
Variable strict : bool.
Variable content : F -> gostr.
Variable ctype : F -> gostr.
Variable bnd : gostr.
Notation send := (net_send strict content ctype bnd).
Notation serve := (net_serve parse_time modtime http_date send).
Ltac lits := repeat first [apply List.Forall_nil | apply List.Forall_cons; [first [exact I | apply fine_lit; vm_compute; reflexivity]|]].
Lemma send_fair r t enc f rg : fair (send r t enc f rg).
Proof.
  unfold net_send. set (th := match t with [] => [(L "Content-Type", Some (ctype f))] | _ => [] end).
  match goal with |- fair (let '(_, _) := ?M in _) => assert (exists t', M = (th, t')) as [t' ->] by (destruct t; eexists; reflexivity) end. cbv iota beta zeta.
  assert (Forall fine th) as Hth by (unfold th; destruct t; lits).
  destruct (parseRange _ _ _) as [e|l].
  - split; [|cbn; lia]. cbn [fst]. apply Forall_app. split; [done|]. apply Forall_app. split; [destruct e; lits|]. lits.
  - destruct (_ <? sumRangesSize l); [|destruct l as [|x [|y l]]]; (split; [|cbn; lia]); cbn [fst]; apply Forall_app; (split; [done|]);
      destruct (seqb enc []); lits.
Qed.
Lemma serve_fair r t etag enc f : fair (serve r t etag enc f).
Proof.
  unfold net_serve. set (lm := match modtime f with Some m => [(L "Last-Modified", Some (http_date m))] | None => [] end).
  assert (Forall fine lm) as Hl by (unfold lm; destruct (modtime f); lits).
  destruct (checkPreconditions _ _ _ _) as [| |rg|].
  - split; [done|cbn; lia].
  - split; [|cbn; lia]. cbn [fst]. apply Forall_app. split; [done|]. destruct (seqb etag []); lits.
  - pose proof (send_fair r t enc f rg) as H. destruct (send r t enc f rg) as [[hs n] out]. destruct H as [H1 H2]. split; [|exact H2].
    cbn [fst]. apply Forall_app. split; done.
  - split; [constructor|cbn; lia].
Qed.
Lemma put_values_none k hs : forall h, (forall key v, (key, Some v) ∈ hs -> canon key <> canon k) -> h_values h k = [] -> h_values (put_headers hs h) k = [].
Proof.
  induction hs as [|[key o] hs IH]; intros h Hk Hh; [done|].
  change (put_headers ((key, o) :: hs) h) with (put_headers hs (match o with Some v => h_set h key v | None => h_del h key end)).
  apply IH; [intros key' v Hin; apply (Hk key' v); by right|]. unfold h_values, h_set, h_del in *. destruct o as [v|].
  - rewrite lookup_insert_ne; [done|]. apply (Hk key v). left.
  - destruct (decide (canon key = canon k)) as [->|E]; [by rewrite lookup_delete|by rewrite lookup_delete_ne].
Qed.
Definition unsized (hs : list (gostr * option gostr)) : Prop := Forall (fun kv => match kv.2 with Some _ => canon kv.1 <> canon (L "Content-Length") | None => True end) hs.
Lemma unsized_values hs h : unsized hs -> h_values h (L "Content-Length") = [] -> h_values (put_headers hs h) (L "Content-Length") = [].
Proof. intros H. apply put_values_none. intros key v Hin. unfold unsized in H. rewrite Forall_forall in H. exact (H _ Hin). Qed.
Ltac keys := repeat first [apply List.Forall_nil | apply List.Forall_cons; [first [exact I | apply (bool_decide_eq_true _); vm_compute; reflexivity]|]].
Lemma send_unsized r t enc f rg hs out : send r t enc f rg = (hs, 416, out) -> unsized hs.
Proof.
  unfold net_send. set (th := match t with [] => [(L "Content-Type", Some (ctype f))] | _ => [] end).
  match goal with |- (let '(_, _) := ?M in _) = _ -> _ => assert (exists t', M = (th, t')) as [t' ->] by (destruct t; eexists; reflexivity) end. cbv iota beta zeta.
  assert (unsized th) as Hth by (unfold th; destruct t; keys).
  destruct (parseRange _ _ _) as [e|l].
  - intros [= <- _]. apply Forall_app. split; [done|]. apply Forall_app. split; [destruct e; keys|]. keys.
  - destruct (_ <? sumRangesSize l); [|destruct l as [|x [|y l]]]; intros [=].
Qed.
Lemma net_declares r etag f (h0 : header) hs n out : strict = true -> content f <> [] -> h_values h0 (L "Content-Length") = [] ->
  serve r [] etag [] f = (hs, n, out) ->
  (forall z m, has (put_headers hs h0) (L "Content-Length") z -> udecimal z m -> m < 2 ^ 63) ->
  declares (bool_decide (rq_method r = L "HEAD")) n (put_headers hs h0) (length (concat out)).
Proof.
  intros Hst Hne H0 E Hb. pose proof E as E0. unfold net_serve in E. revert E.
  set (lm := match modtime f with Some m => [(L "Last-Modified", Some (http_date m))] | None => [] end).
  assert (unsized lm) as Hlm by (unfold lm; destruct (modtime f); keys).
  destruct (checkPreconditions _ _ _ _) as [| |rg|] eqn:Hc.
  - intros [= <- <- <-]. left. by apply unsized_values.
  - intros [= <- <- <-]. left. apply unsized_values; [|done]. apply Forall_app. split; [done|]. destruct (seqb etag []); keys.
  - intros E.
    destruct (net_file_go (fun _ => false) (fun _ _ => None) (fun _ => []) (fun _ _ _ => (∅, false, [])) parse_time modtime http_date strict content ctype bnd r [] etag f h0 rg Hc (or_introl eq_refl)) as (hs' & n' & out' & E' & _ & _ & C & _).
    rewrite E0 in E'. injection E' as <- <- <-. destruct (send r [] [] f rg) as [[hs1 n1] out1] eqn:Es. injection E as <- <- <-.
    destruct (C Hst Hne) as [->|(b & Hout & Hp)].
    + left. apply unsized_values; [|done]. apply Forall_app. split; [done|]. by eapply send_unsized.
    + assert (exists z, udecimal z (Z.of_nat (length b)) /\ has (put_headers (lm ++ hs1) h0) (L "Content-Length") z) as (z & Hz & Hl).
      { destruct Hp as [(_ & Hp & _ & _ & z & Hz & Hl)|(l & _ & _ & Hp)]; [exists z; by rewrite Hp|]. inversion Hp; subst; eexists; split; done. }
      right. exists z, (Z.of_nat (length b)). specialize (Hb _ _ Hl Hz). rewrite Hout.
      destruct (bool_decide _) eqn:Eh; cbn [length].
      * split_and!; [done|done|lia|lia|]. right. by left.
      * split_and!; [done|done|lia|lia|]. by left.
  - intros [= <- <- <-]. left. done.
Qed.
End Net.
Lemma announced_length o mtime size base : h_values (announced o mtime size base) (L "Content-Length") = [].
Proof.
  unfold announced, h_values. change (canon (L "Content-Length")) with (L "Content-Length").
  assert (forall h : header, h !! L "Content-Length" = None -> default [] (h !! L "Content-Length") = []) as Hd by (intros ? ->; done).
  apply Hd. assert (expiring o !! L "Content-Length" = None) as He.
  { unfold expiring. destruct (so_expires o); [|by rewrite lookup_empty]. by rewrite ?lookup_insert_ne, ?lookup_singleton_ne, ?lookup_empty by done. }
  destruct (decide _); [done|]. by rewrite lookup_insert_ne by done.
Qed.

Section Static.
Context {A V F O : Type}.
Variable re_ok : gostr -> bool.
Variable re_find : gostr -> gostr -> option (list gostr).
Variable sniff : gostr -> gostr.
Variable parse_form : bool -> request -> gostr * bool -> gmap gostr (list gostr) * bool * gostr.
Variable code : handler A -> prog V.
Variable location : request -> gostr -> gostr.
Variable page : request -> gostr -> Z -> gostr.
Variable parse_time : gostr -> option Z.
Variable modtime : F -> option Z.
Variable http_date : Z -> gostr.
Variable strict : bool.
Variable content : F -> gostr.
Variable ctype : F -> gostr.
Variable bnd : gostr.
Variable serve_file : request -> gostr -> gostr -> gostr -> gostr -> O -> list (gostr * option gostr) * Z * list gostr.
Variable has_token : gostr -> gostr -> bool.
Variable status_text : Z -> option gostr.
Variable keep : bool.
Variable sz : nat.
Hypothesis text_line : forall n t, status_text n = Some t -> bare t.
Hypothesis sniff_line : forall d, one_line (sniff d).
Hypothesis sniff_window : forall a b, (sz <= length a)%nat -> sniff (a ++ b) = sniff a.
Hypothesis serve_file_valid : forall r t etag enc p os, 100 <= (serve_file r t etag enc p os).1.2 <= 999.
Hypothesis code_proper : forall h, only proper (code h).

Lemma typed_finish w n hd t : rw_sent w = Some (n, hd) -> has hd (L "Content-Type") t -> finish sniff w = (n, hd, rw_body w).
Proof.
  intros Hs Ht. destruct (finish sniff w) as [[n1 h1] b1] eqn:Hf. destruct (finish_head sniff _ _ _ _ Hf) as (h0 & Hr & -> & Hg).
  unfold response_head in Hr. rewrite Hs in Hr. injection Hr as <- <-. destruct Hg as [(_ & _ & Hx & _)|[-> _]]; [|done].
  exfalso. unfold has, h_values in Ht. change (canon (L "Content-Type")) with (L "Content-Type") in Ht. by rewrite Hx in Ht.
Qed.
Lemma one_exchange ex n hd b : sound sniff ex -> finish sniff (ex_response ex) = (n, hd, b) ->
  exists fs, reads_all [asks_head ex] (connection has_token status_text sniff keep sz [ex]) [(n, fs, if asks_head ex then [] else b)] /\
    forall k, is_token k -> canon k ∉ hop_names -> (n = 304 -> canon k <> L "Content-Type") -> Forall2 line_of (h_values hd k) (field_values k fs).
Proof.
  intros Hs Hf. destruct (connection_read has_token status_text sniff keep sz text_line sniff_line sniff_window [ex]) as (ms & H1 & H2).
  { by constructor. }
  assert (answered has_token status_text sniff keep sz [ex] = [ex]) as E by (cbn; by destruct (snd _)).
  rewrite E in H1, H2. inversion H2 as [|? m ? ms' Hm Hms]; subst. inversion Hms; subst. destruct (Hm _ _ _ Hf) as (fs & -> & Hv). by exists fs.
Qed.

Lemma static_sound ops r0 opts e id x r body px c' v pre h o open os name mtime size base f d u :
  engine_of re_ok ops r0 opts e -> ServeHTTP re_find sniff parse_form code e id x (arrive r body) = (EDone, px, c') ->
  (forall n, ~ refused r n) -> sole_route re_ok re_find e v r ->
  Forall literal_seg pre -> rt_variant v = slashed (pre ++ [L "*"]) ->
  rt_handlers v = [h] ->
  code h = static_handler location page (net_serve parse_time modtime http_date (net_send strict content ctype bnd)) serve_file o open os ->
  rq_method r = L "GET" \/ rq_method r = L "HEAD" ->
  file_name pre r name -> open name = Regular mtime size base f -> unconditional (h_get (rq_header r)) ->
  one_line d ->
  let ex := mkExchange r d u (cn_rw c') (pieces (cn_log c')) in
  exists n hd, rw_sent (cn_rw c') = Some (n, hd) /\
    (h_get (rq_header r) (L "Range") = [] -> Z.of_nat (length (content f)) < 2 ^ 63 ->
      whole_reply (content f) (ctype f) n hd (content f) /\ finish sniff (cn_rw c') = (n, hd, if asks_head ex then [] else content f) /\ sound sniff ex) /\
    (rq_method r = L "GET" -> strict = true -> content f <> [] -> n <> 416 -> Z.of_nat (length (rw_body (cn_rw c'))) < 2 ^ 63 ->
      (whole_reply (content f) (ctype f) n hd (rw_body (cn_rw c')) \/
       exists l, l <> [] /\ Forall (within (Z.of_nat (length (content f)))) l /\ parts_reply (content f) (ctype f) bnd l n hd (rw_body (cn_rw c'))) /\
      finish sniff (cn_rw c') = (n, hd, rw_body (cn_rw c')) /\ sound sniff ex).
Proof.
  intros He H Href Hs Hpre Hv Hh Hc Hm Hn Ho Hu Hd ex.
  destruct (static_ranges re_ok re_find sniff parse_form code location page parse_time modtime http_date strict content ctype bnd serve_file serve_file_valid
    _ _ _ _ _ _ _ _ _ _ _ _ _ _ _ _ _ _ _ _ _ _ He H Href Hs Hpre Hv Hh Hc Hm Hn Ho Hu) as (n & hd & Hr & D & C & _).
  exists n, hd. split; [done|].
  assert (finish sniff (cn_rw c') = (n, hd, rw_body (cn_rw c')) ->
    forall z m, has hd (L "Content-Length") z -> udecimal z m -> Z.of_nat (length (rw_body (cn_rw c'))) <= m < 2 ^ 63 -> (m = Z.of_nat (length (rw_body (cn_rw c'))) \/ rq_method r = L "HEAD") ->
    sound sniff ex) as Hsound.
  { intros Hf z m H1 H2 H3 H4. apply (proper_sound sniff parse_form re_find code); [done| |].
    - exists e, id, x, r, body, px, c', d, u. done.
    - cbn [ex_response ex]. intros n1 h1 b1 Hf1. rewrite Hf in Hf1. injection Hf1 as <- <- <-. right. exists z, m. split_and!; try done; try lia.
      destruct H4 as [->|H4]; [by left|right]. left. unfold asks_head. cbn [ex_request ex]. by rewrite bool_decide_eq_true_2. }
  split.
  - intros Hrg Hsz. destruct D as [D _]. destruct (D Hrg) as (b & Hw & Hout). pose proof Hw as (-> & -> & Ht & Ha & z & Hz & Hl).
    pose proof (typed_finish _ _ _ _ Hr Ht) as Hf.
    split_and!; [done|rewrite Hf; f_equal; exact Hout|].
    apply (Hsound Hf z _ Hl Hz); [|destruct (decide (rq_method r = L "HEAD")) as [E|E]; [by right|left]].
    + rewrite Hout. destruct (bool_decide _); cbn [length]; lia.
    + rewrite Hout, bool_decide_eq_false_2 by done. done.
  - intros HG Hst Hne H416 Hsz. destruct (C Hst Hne) as [?|(b & Hout & Hb)]; [done|].
    rewrite bool_decide_eq_false_2 in Hout by (rewrite HG; done). subst b.
    assert (exists t z, has hd (L "Content-Type") t /\ udecimal z (Z.of_nat (length (rw_body (cn_rw c')))) /\ has hd (L "Content-Length") z) as (t & z & H1 & H2 & H3).
    { destruct Hb as [(_ & Hb & Ht & _ & z & Hz & Hl)|(l & _ & _ & Hp)]; [exists (ctype f), z; by rewrite Hb|].
      inversion Hp; subst; eexists _, _; split_and!; done. }
    pose proof (typed_finish _ _ _ _ Hr H1) as Hf. split_and!; [done|done|]. apply (Hsound Hf z _ H3 H2); [lia|by left].
Qed.

(** every reply for a file, whatever the conditions and the ranges *)
Lemma any_sound ops r0 opts e id x r body px c' v pre h o open os name mtime size base f d u :
  engine_of re_ok ops r0 opts e -> ServeHTTP re_find sniff parse_form code e id x (arrive r body) = (EDone, px, c') ->
  (forall n, ~ refused r n) -> sole_route re_ok re_find e v r ->
  Forall literal_seg pre -> rt_variant v = slashed (pre ++ [L "*"]) ->
  rt_handlers v = [h] ->
  code h = static_handler location page (net_serve parse_time modtime http_date (net_send strict content ctype bnd)) serve_file o open os ->
  rq_method r = L "GET" \/ rq_method r = L "HEAD" ->
  file_name pre r name -> open name = Regular mtime size base f -> one_line d -> strict = true -> content f <> [] ->
  (forall n hd z m, rw_sent (cn_rw c') = Some (n, hd) -> has hd (L "Content-Length") z -> udecimal z m -> m < 2 ^ 63) ->
  sound sniff (mkExchange r d u (cn_rw c') (pieces (cn_log c'))).
Proof.
  intros He H Href Hs Hpre Hv Hh Hc Hm Hn Ho Hd Hst Hne Hb.
  assert (exists n hd, rw_sent (cn_rw c') = Some (n, hd) /\ declares (bool_decide (rq_method r = L "HEAD")) n hd (length (rw_body (cn_rw c')))) as (n & hd & Hr & Hdec).
  { destruct (static_served re_ok re_find sniff parse_form code location page (net_serve parse_time modtime http_date (net_send strict content ctype bnd)) serve_file
      (fun r t etag enc f => proj2 (code_ok _) (net_valid parse_time modtime http_date strict content ctype bnd r t etag enc f)) (fun r t etag enc p os => proj2 (code_ok _) (serve_file_valid r t etag enc p os))
      _ _ _ _ _ _ _ _ _ _ _ _ _ _ _ _ _ He H Href Hs Hpre Hv Hh Hc Hm) as (n1 & N1 & _ & a1 & R1 & S1 & B1).
    rewrite (file_name_fun _ _ _ _ N1 Hn), Ho in R1. clear N1 n1.
    inversion R1 as [[H1|H1]|? ? ? ? H1 H2 H3|? ? ? ? H1 H2|H1 H2 H3 loc|H1 H2]; try discriminate H1; injection H1 as <- <- <- <-; subst a1; cbn [fst snd] in S1, B1.
    - eexists _, _. split; [exact S1|]. left. apply announced_length.
    - destruct (net_serve _ _ _ _ _ _ _ _ _) as [[hs n] out] eqn:E in S1, B1. cbn [completed fst snd] in S1, B1. eexists _, _. split; [exact S1|].
      eapply net_declares in E as [E|(z & m & E1 & E2 & E3 & E4)]; [by left| |done|done|apply announced_length|intros z m; by apply (Hb _ _ _ _ S1)].
      right. exists z, m. rewrite B1. destruct (bears_body n) eqn:Eb; [exact (conj E1 (conj E2 (conj E3 E4)))|].
      split_and!; [done|done|cbn [length]; lia|lia|]. destruct E4 as [E4|E4]; [|by right]. right. right.
      unfold bears_body in Eb. apply negb_false_iff in Eb. rewrite !orb_true_iff, andb_true_iff, !Z.leb_le, !Z.eqb_eq in Eb. tauto. }
  apply (proper_sound sniff parse_form re_find code); [done| |].
  - exists e, id, x, r, body, px, c', d, u. done.
  - cbn [ex_response]. intros n1 h1 b1 Hf. destruct (finish_head sniff _ _ _ _ Hf) as (h0 & Hrh & -> & Hg).
    unfold response_head in Hrh. rewrite Hr in Hrh. injection Hrh as <- <-. destruct Hg as [(-> & _)|[-> _]]; [|exact Hdec].
    unfold declares in *. unfold h_values, h_set in *. rewrite lookup_insert_ne; [exact Hdec|]. apply (bool_decide_eq_true _). vm_compute. reflexivity.
Qed.
Theorem any_read ops r0 opts e id x r body px c' v pre h o open os name mtime size base f d u :
  engine_of re_ok ops r0 opts e -> ServeHTTP re_find sniff parse_form code e id x (arrive r body) = (EDone, px, c') ->
  (forall n, ~ refused r n) -> sole_route re_ok re_find e v r ->
  Forall literal_seg pre -> rt_variant v = slashed (pre ++ [L "*"]) ->
  rt_handlers v = [h] ->
  code h = static_handler location page (net_serve parse_time modtime http_date (net_send strict content ctype bnd)) serve_file o open os ->
  rq_method r = L "GET" \/ rq_method r = L "HEAD" ->
  file_name pre r name -> open name = Regular mtime size base f -> one_line d -> strict = true -> content f <> [] ->
  (forall n hd z m, rw_sent (cn_rw c') = Some (n, hd) -> has hd (L "Content-Length") z -> udecimal z m -> m < 2 ^ 63) ->
  let ex := mkExchange r d u (cn_rw c') (pieces (cn_log c')) in
  sound sniff ex /\
  exists n hd fs, rw_sent (cn_rw c') = Some (n, hd) /\
    forall ms, reads_all [asks_head ex] (connection has_token status_text sniff keep sz [ex]) ms <-> ms = [(n, fs, if asks_head ex then [] else rw_body (cn_rw c'))].
Proof.
  intros He H Href Hs Hpre Hv Hh Hc Hm Hn Ho Hd Hst Hne Hb ex.
  pose proof (any_sound _ _ _ _ _ _ _ _ _ _ _ _ _ _ _ _ _ _ _ _ _ d u He H Href Hs Hpre Hv Hh Hc Hm Hn Ho Hd Hst Hne Hb) as Hsn. fold ex in Hsn. split; [done|].
  destruct (finish sniff (cn_rw c')) as [[n h1] b] eqn:Hf. destruct (finish_head sniff _ _ _ _ Hf) as (h0 & Hrh & -> & _).
  destruct (one_exchange ex _ _ _ Hsn Hf) as (fs & Hrd & _).
  assert (exists hd, rw_sent (cn_rw c') = Some (n, hd)) as [hd Hr].
  { destruct (static_served re_ok re_find sniff parse_form code location page (net_serve parse_time modtime http_date (net_send strict content ctype bnd)) serve_file
      (fun r t etag enc f => proj2 (code_ok _) (net_valid parse_time modtime http_date strict content ctype bnd r t etag enc f)) (fun r t etag enc p os => proj2 (code_ok _) (serve_file_valid r t etag enc p os))
      _ _ _ _ _ _ _ _ _ _ _ _ _ _ _ _ _ He H Href Hs Hpre Hv Hh Hc Hm) as (n1 & _ & _ & a1 & _ & S1 & _).
    unfold response_head in Hrh. rewrite S1 in Hrh. injection Hrh as <- <-. rewrite S1. by eexists. }
  exists n, hd, fs. split; [done|]. intros ms. split; [|by intros ->]. intros Hms. by eapply reads_all_one.
Qed.
Theorem static_read ops r0 opts e id x r body px c' v pre h o open os name mtime size base f d u :
  engine_of re_ok ops r0 opts e -> ServeHTTP re_find sniff parse_form code e id x (arrive r body) = (EDone, px, c') ->
  (forall n, ~ refused r n) -> sole_route re_ok re_find e v r ->
  Forall literal_seg pre -> rt_variant v = slashed (pre ++ [L "*"]) ->
  rt_handlers v = [h] ->
  code h = static_handler location page (net_serve parse_time modtime http_date (net_send strict content ctype bnd)) serve_file o open os ->
  rq_method r = L "GET" \/ rq_method r = L "HEAD" ->
  file_name pre r name -> open name = Regular mtime size base f -> unconditional (h_get (rq_header r)) -> h_get (rq_header r) (L "Range") = [] ->
  one_line d -> one_line (ctype f) -> Z.of_nat (length (content f)) < 2 ^ 63 ->
  let ex := mkExchange r d u (cn_rw c') (pieces (cn_log c')) in
  let bytes := connection has_token status_text sniff keep sz [ex] in
  sound sniff ex /\
  exists fs, field_values (L "Content-Type") fs = [ctype f] /\
    forall ms, reads_all [asks_head ex] bytes ms <-> ms = [(200, fs, if asks_head ex then [] else content f)].
Proof.
  intros He H Href Hs Hpre Hv Hh Hc Hm Hn Ho Hu Hrg Hd Hty Hsz ex bytes.
  destruct (static_sound _ _ _ _ _ _ _ _ _ _ _ _ _ _ _ _ _ _ _ _ _ d u He H Href Hs Hpre Hv Hh Hc Hm Hn Ho Hu Hd) as (n & hd & Hr & Hw & _).
  destruct (Hw Hrg Hsz) as ((-> & _ & Ht & _) & Hf & Hsn). fold ex in Hf, Hsn. split; [done|].
  destruct (one_exchange ex _ _ _ Hsn Hf) as (fs & Hrd & Hfs). exists fs. split.
  - specialize (Hfs (L "Content-Type")). rewrite Ht in Hfs. 
    assert (Forall2 line_of [ctype f] (field_values (L "Content-Type") fs)) as H2.
    { apply Hfs; [apply (bool_decide_eq_true _); vm_compute; reflexivity|apply (bool_decide_eq_true _); vm_compute; reflexivity|done]. }
    inversion H2 as [|? l ? ls Hl Hls]; subst. inversion Hls; subst. f_equal. by apply line_of_id.
  - assert ((if asks_head ex then [] else if asks_head ex then [] else content f) = if asks_head ex then [] else content f) as E by (by destruct (asks_head ex)).
    rewrite E in Hrd. intros ms. split; [|by intros ->]. intros Hms. by eapply reads_all_one.
Qed.
End Static.
