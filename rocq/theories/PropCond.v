(** Properties of conditional requests for static files. *)
From Verif Require Import Base GoStr Strconv Pattern Tree TreeSpec Header Router RouterSpec PathClean Ctx Util UtilSpec Content
  TraceSpec Engine EngineSpec StaticReg Static StaticSpec StaticTop NetServe CondSpec NetServeFacts CondTop
  ExampleRegexp ExampleRouter ExampleServe PropStatic.
Local Open Scope Z_scope.

(** ** The example of PropStatic with net/http's ServeContent *)
Definition ux_time (s : gostr) : option Z := if seqb s (L "Thu") then Some 7 else None.
Lemma ux_dates : forall s u, ux_time s = Some u -> """"%char ∉ s.
Proof.
  intros s u. unfold ux_time. destruct (seqb s (L "Thu")) eqn:E; [|done]. apply seqb_true in E as ->. intros _.
  apply (bool_decide_eq_false _). by vm_compute.
Qed.
Definition ux_send (r : request) (t enc f rg : gostr) : list (gostr * option gostr) * Z * list gostr :=
  if seqb rg [] then ([], 200, [f]) else ([], 206, [take 1 f]).
Lemma ux_send_valid : forall r t enc f rg, 100 <= (ux_send r t enc f rg).1.2 <= 999.
Proof. intros. unfold ux_send. destruct (seqb rg []); cbn; lia. Qed.
Lemma ux_file_valid : forall r t etag enc p os, 100 <= (fx_file r t etag enc p os).1.2 <= 999.
Proof. intros. cbn. lia. Qed.
Definition ux_serve := net_serve ux_time (fun _ : gostr => Some 7) (fun _ => L "Thu") ux_send.
Definition ux_code (h : handler nat) : prog gostr := static_handler fx_location fx_page ux_serve fx_file fx_opts fx_open [].
Definition ux_req (hd : header) : request := mkReq (L "GET") 1 1 (L "/f/a.txt") (L "/f/a.txt") hd (L "192.0.2.1:9") false.
Notation ux_run e hd := (ServeHTTP ex_find ex_sniff ex_form ux_code e 0 newContext (arrive (ux_req hd) no_body)).
Notation ux_asks := (file_request ex_ok ex_find ex_sniff ex_form ux_code fx_location fx_page ux_time (fun _ => Some 7) (fun _ => L "Thu") ux_send fx_file).
Definition ux_seen (e : engine nat) (hd : header) : Z * gostr :=
  let c := (ux_run e hd).2 in (match rw_sent (cn_rw c) with Some (n, _) => n | None => 0 end, rw_body (cn_rw c)).
Lemma ux_asked : exists e, engine_of ex_ok fx_ops 0 [] e /\
  forall hd, h_get hd (L "Expect") = [] -> ux_asks e (ux_req hd) (L "7-3") (L "abc") (ux_run e hd).2.
Proof.
  destruct fx_engine as (e & v & He & _ & Hv & Hh & Hsole). exists e. split; [done|]. intros hd Hx.
  assert (sole_route ex_ok ex_find e v (ux_req hd)) as Hs by (exact (Hsole (L "/f/a.txt") [L "a.txt"] eq_refl ltac:(done))).
  assert (file_name [L "f"] (ux_req hd) (L "a.txt")) as Hn by (by exists [L "a.txt"]).
  assert (forall n, ~ refused (ux_req hd) n) as Hr.
  { intros n [[H|[H|H]]|_ H]; [destruct H as [H|[_ H]]; discriminate H|discriminate H|discriminate H|].
    apply H. by left. }
  destruct (ux_run e hd) as [[en px] c'] eqn:H.
  eexists fx_ops, _, _, _, _, _, _, _, v, _, _, fx_opts, _, _, _, _, _, _.
  split; [exact He|]. split; [exact H|]. split; [exact Hr|]. split; [exact Hs|]. split; [exact fx_literal|]. split; [exact Hv|].
  split; [exact Hh|]. split; [reflexivity|]. split; [by left|]. split; [exact Hn|]. split; [reflexivity|]. split; [done|reflexivity].
Qed.

(** ** C96 *)
(** The tag that a file was sent with is not taken for its tag: a request that may
    proceed if the file still has it fails, one for the missing part of the file
    gets all of it, and a list of tags with this one in it, or the tag in quotation
    marks as HTTP wants it, gets the content again. *)
Theorem C96_tags_refuted :
  exists e T, (forall hd, h_get hd (L "Expect") = [] -> ux_asks e (ux_req hd) T (L "abc") (ux_run e hd).2) /\
    (exists hd, rw_sent (cn_rw (ux_run e ∅).2) = Some (200, hd) /\ h_get hd (L "Etag") = T) /\
    ux_seen e {[ L "If-Match" := [T] ]} = (412, []) /\
    ux_seen e {[ L "If-Match" := [L """" ++ T ++ L """"] ]} = (412, []) /\
    ux_seen e {[ L "Range" := [L "bytes=0-0"] ]} = (206, L "a") /\
    ux_seen e (<[ L "Range" := [L "bytes=0-0"] ]> {[ L "If-Range" := [T] ]}) = (200, L "abc") /\
    ux_seen e {[ L "If-None-Match" := [T] ]} = (304, []) /\
    ux_seen e {[ L "If-None-Match" := [L """" ++ T ++ L """"] ]} = (200, L "abc") /\
    ux_seen e {[ L "If-None-Match" := [T ++ L ", ""x"""] ]} = (200, L "abc").
Proof.
  destruct ux_asked as (e & He & Ha). exists e, (L "7-3"). split; [exact Ha|].
  assert ((match rw_sent (cn_rw (ux_run e ∅).2) with Some (n, hd) => Some (n, h_get hd (L "Etag")) | None => None end,
    map (ux_seen e) [ {[ L "If-Match" := [L "7-3"] ]}; {[ L "If-Match" := [L """7-3"""] ]};
      {[ L "Range" := [L "bytes=0-0"] ]}; <[ L "Range" := [L "bytes=0-0"] ]> {[ L "If-Range" := [L "7-3"] ]};
      {[ L "If-None-Match" := [L "7-3"] ]}; {[ L "If-None-Match" := [L """7-3"""] ]}; {[ L "If-None-Match" := [L "7-3, ""x"""] ]} ]) =
    (Some (200, L "7-3"), [(412, []); (412, []); (206, L "a"); (200, L "abc"); (304, []); (200, L "abc"); (200, L "abc")])) as H.
  { apply (with_engine_fun ex_ok fx_ops [] (fun e => (match rw_sent (cn_rw (ux_run e ∅).2) with Some (n, hd) => Some (n, h_get hd (L "Etag")) | None => None end,
    map (ux_seen e) [ {[ L "If-Match" := [L "7-3"] ]}; {[ L "If-Match" := [L """7-3"""] ]};
      {[ L "Range" := [L "bytes=0-0"] ]}; <[ L "Range" := [L "bytes=0-0"] ]> {[ L "If-Range" := [L "7-3"] ]};
      {[ L "If-None-Match" := [L "7-3"] ]}; {[ L "If-None-Match" := [L """7-3"""] ]}; {[ L "If-None-Match" := [L "7-3, ""x"""] ]} ])) _ e);
    [vm_compute; reflexivity|exact He]. }
  apply pair_equal_spec in H as [H0 H]. cbn [map] in H.
  assert (forall (a a' : Z * gostr) l l', a :: l = a' :: l' -> a = a' /\ l = l') as Hc by (intros ? ? ? ? E; by inversion E).
  apply Hc in H as [H1 H]. apply Hc in H as [H2 H]. apply Hc in H as [H3 H]. apply Hc in H as [H4 H]. apply Hc in H as [H5 H].
  apply Hc in H as [H6 H]. apply Hc in H as [H7 _]. clear Hc.
  split; [|exact (conj H1 (conj H2 (conj H3 (conj H4 (conj H5 (conj H6 H7))))))].
  destruct (rw_sent (cn_rw (ux_run e ∅).2)) as [[n hd]|]; [|discriminate H0]. exists hd. by injection H0 as -> ->.
Qed.
Print Assumptions C96_tags_refuted.
(** What requests with conditions get (CondSpec.answers), if If-Match and
    If-None-Match are just a star or have none: 304 if If-None-Match is the tag
    itself; otherwise 412 for any If-Match but a star; otherwise 304 if If-None-Match
    is a star; otherwise dates decide. *)
Theorem C96_conditional_partial :
  forall (A V F O : Type) re_ok re_find sniff parse_form (code : handler A -> prog V) location page parse_time
    (modtime : F -> option Z) http_date send
    (serve_file : request -> gostr -> gostr -> gostr -> gostr -> O -> list (gostr * option gostr) * Z * list gostr),
  (forall r t enc f rg, 100 <= (send r t enc f rg).1.2 <= 999) ->
  (forall r t etag enc p os, 100 <= (serve_file r t etag enc p os).1.2 <= 999) ->
  (forall s u, parse_time s = Some u -> """"%char ∉ s) ->
  forall e r tag f c',
  file_request re_ok re_find sniff parse_form code location page parse_time modtime http_date send serve_file e r tag f c' ->
  tags_or_star (h_get (rq_header r) (L "If-Match")) -> tags_or_star (h_get (rq_header r) (L "If-None-Match")) ->
  exists a hd, answers parse_time tag (modtime f) (h_get (rq_header r)) a /\
    match a with
    | Precondition => rw_sent (cn_rw c') = Some (412, hd) /\ rw_body (cn_rw c') = [] /\ h_get hd (L "Etag") = tag /\ dated http_date (modtime f) hd
    | NotModified => rw_sent (cn_rw c') = Some (304, hd) /\ rw_body (cn_rw c') = [] /\ h_get hd (L "Etag") = tag /\ no_entity hd
    | CondSpec.Content rg =>
        let '(hs, n, out) := send r [] [] f rg in
        rw_sent (cn_rw c') = Some (n, hd) /\
        (bodiless n -> rw_body (cn_rw c') = []) /\ (~ bodiless n -> rw_body (cn_rw c') = concat out) /\
        ((forall kv, kv ∈ hs -> canon kv.1 <> L "Etag") -> h_get hd (L "Etag") = tag) /\
        ((forall kv, kv ∈ hs -> canon kv.1 <> L "Last-Modified") -> dated http_date (modtime f) hd)
    end.
Proof. exact @conditional_reply. Qed.
Print Assumptions C96_conditional_partial.
Theorem C96_one_answer :
  forall parse_time T m h a b, answers parse_time T m h a -> answers parse_time T m h b -> a = b.
Proof. exact answers_fun. Qed.
Print Assumptions C96_one_answer.
(** So a change that a client asks for on condition of any tag is never made on a
    changed file, nor on an unchanged one; *)
Theorem C96_if_match_partial :
  forall (A V F O : Type) re_ok re_find sniff parse_form (code : handler A -> prog V) location page parse_time
    (modtime : F -> option Z) http_date send
    (serve_file : request -> gostr -> gostr -> gostr -> gostr -> O -> list (gostr * option gostr) * Z * list gostr),
  (forall r t enc f rg, 100 <= (send r t enc f rg).1.2 <= 999) ->
  (forall r t etag enc p os, 100 <= (serve_file r t etag enc p os).1.2 <= 999) ->
  (forall s u, parse_time s = Some u -> """"%char ∉ s) ->
  forall e r tag f c',
  file_request re_ok re_find sniff parse_form code location page parse_time modtime http_date send serve_file e r tag f c' ->
  "*"%char ∉ h_get (rq_header r) (L "If-Match") -> tags_or_star (h_get (rq_header r) (L "If-None-Match")) ->
  h_get (rq_header r) (L "If-Match") <> [] -> h_get (rq_header r) (L "If-None-Match") <> tag ->
  rw_body (cn_rw c') = [] /\ exists hd, rw_sent (cn_rw c') = Some (412, hd) /\ h_get hd (L "Etag") = tag.
Proof. exact @if_match_fails. Qed.
Print Assumptions C96_if_match_partial.
(** a client that has another version, by If-None-Match, gets the content, whatever
    it says of dates; *)
Theorem C96_other_version_partial :
  forall (A V F O : Type) re_ok re_find sniff parse_form (code : handler A -> prog V) location page parse_time
    (modtime : F -> option Z) http_date send
    (serve_file : request -> gostr -> gostr -> gostr -> gostr -> O -> list (gostr * option gostr) * Z * list gostr),
  (forall r t enc f rg, 100 <= (send r t enc f rg).1.2 <= 999) ->
  (forall r t etag enc p os, 100 <= (serve_file r t etag enc p os).1.2 <= 999) ->
  (forall s u, parse_time s = Some u -> """"%char ∉ s) ->
  forall e r tag f c',
  file_request re_ok re_find sniff parse_form code location page parse_time modtime http_date send serve_file e r tag f c' ->
  "*"%char ∉ h_get (rq_header r) (L "If-None-Match") -> h_get (rq_header r) (L "If-None-Match") <> [] ->
  h_get (rq_header r) (L "If-None-Match") <> tag ->
  h_get (rq_header r) (L "If-Match") = [] -> h_get (rq_header r) (L "If-Unmodified-Since") = [] -> h_get (rq_header r) (L "Range") = [] ->
  let '(hs, n, out) := send r [] [] f [] in
  (exists hd, rw_sent (cn_rw c') = Some (n, hd)) /\ (~ bodiless n -> rw_body (cn_rw c') = concat out).
Proof. exact @if_none_match_content. Qed.
Print Assumptions C96_other_version_partial.
(** and a range asked for on condition of a tag, whichever, is not cut out of the
    file: the client gets what it gets without the Range header. *)
Theorem C96_if_range_partial :
  forall (A V F O : Type) re_ok re_find sniff parse_form (code : handler A -> prog V) location page parse_time
    (modtime : F -> option Z) http_date send
    (serve_file : request -> gostr -> gostr -> gostr -> gostr -> O -> list (gostr * option gostr) * Z * list gostr),
  (forall r t enc f rg, 100 <= (send r t enc f rg).1.2 <= 999) ->
  (forall r t etag enc p os, 100 <= (serve_file r t etag enc p os).1.2 <= 999) ->
  (forall s u, parse_time s = Some u -> """"%char ∉ s) ->
  forall e r tag f c',
  file_request re_ok re_find sniff parse_form code location page parse_time modtime http_date send serve_file e r tag f c' ->
  h_get (rq_header r) (L "If-None-Match") = [] -> h_get (rq_header r) (L "If-Match") = [] ->
  h_get (rq_header r) (L "If-Unmodified-Since") = [] -> h_get (rq_header r) (L "If-Modified-Since") = [] ->
  h_get (rq_header r) (L "If-Range") <> [] -> parse_time (h_get (rq_header r) (L "If-Range")) = None ->
  let '(hs, n, out) := send r [] [] f [] in
  (exists hd, rw_sent (cn_rw c') = Some (n, hd)) /\ (~ bodiless n -> rw_body (cn_rw c') = concat out).
Proof. exact @if_range_ignored. Qed.
Print Assumptions C96_if_range_partial.
(** requests that meet the hypotheses, with each of the answers *)
Example C96_case :
  exists e, (forall r t enc f rg, 100 <= (ux_send r t enc f rg).1.2 <= 999) /\
    (forall r t etag enc p os, 100 <= (fx_file r t etag enc p os).1.2 <= 999) /\
    (forall s u, ux_time s = Some u -> """"%char ∉ s) /\
    (forall hd, h_get hd (L "Expect") = [] -> ux_asks e (ux_req hd) (L "7-3") (L "abc") (ux_run e hd).2) /\
    answers ux_time (L "7-3") (Some 7) (h_get {[ L "If-Match" := [L "7-3"] ]}) Precondition /\
    answers ux_time (L "7-3") (Some 7) (h_get {[ L "If-None-Match" := [L "7-3"] ]}) NotModified /\
    answers ux_time (L "7-3") (Some 7) (h_get {[ L "If-Modified-Since" := [L "Thu"] ]}) NotModified /\
    answers ux_time (L "7-3") (Some 7) (h_get (<[ L "If-Match" := [L "*"] ]> {[ L "If-None-Match" := [L "*"] ]})) NotModified /\
    tags_or_star (L "*") /\
    ux_seen e (<[ L "If-Match" := [L "*"] ]> {[ L "If-None-Match" := [L "*"] ]}) = (304, []) /\
    ux_seen e {[ L "If-Match" := [L "*"] ]} = (200, L "abc") /\
    answers ux_time (L "7-3") (Some 7) (h_get (<[ L "If-None-Match" := [L "6-3"] ]> {[ L "If-Modified-Since" := [L "Thu"] ]})) (CondSpec.Content []) /\
    answers ux_time (L "7-3") (Some 7) (h_get (<[ L "Range" := [L "bytes=0-0"] ]> {[ L "If-Range" := [L "Thu"] ]})) (CondSpec.Content (L "bytes=0-0")) /\
    answers ux_time (L "7-3") (Some 7) (h_get (<[ L "Range" := [L "bytes=0-0"] ]> {[ L "If-Range" := [L "7-3"] ]})) (CondSpec.Content []).
Proof.
  destruct ux_asked as (e & He & Ha). exists e. split; [exact ux_send_valid|]. split; [exact ux_file_valid|]. split; [exact ux_dates|]. split; [exact Ha|].
  assert (forall m, ~ newer ux_time m []) as Hn by (intros m (t & u & _ & H & _); by apply H).
  assert (forall m, ~ unchanged_since ux_time m []) as Hu by (intros m (t & u & _ & H & _); by apply H).
  split_and!.
  - apply an_fails; [by vm_compute|]. intros [H|[H _]]; by vm_compute in H.
  - apply an_same; by vm_compute.
  - apply an_since; [by vm_compute|done|right; split; [by vm_compute|apply Hn]|]. exists 7, 7. split_and!; [done|by vm_compute|by vm_compute|lia].
  - apply an_any; [by vm_compute|left; by vm_compute].
  - by right.
  - apply (with_engine_fun ex_ok fx_ops [] (fun e => ux_seen e (<[ L "If-Match" := [L "*"] ]> {[ L "If-None-Match" := [L "*"] ]})) _ e); [vm_compute; reflexivity|exact He].
  - apply (with_engine_fun ex_ok fx_ops [] (fun e => ux_seen e {[ L "If-Match" := [L "*"] ]}) _ e); [vm_compute; reflexivity|exact He].
  - apply an_content; [by vm_compute|by vm_compute|right; split; [by vm_compute|apply Hn]|intros H; by vm_compute in H|by vm_compute|done].
  - apply an_content; [by vm_compute|by vm_compute|right; split; [by vm_compute|apply Hn]|intros _; apply Hu|by vm_compute|]. intros H. destruct H. right. exists 7. by vm_compute.
  - apply an_content; [by vm_compute|by vm_compute|right; split; [by vm_compute|apply Hn]|intros _; apply Hu| |done].
    intros [H|(t & _ & H)]; [by vm_compute in H|by vm_compute in H].
Qed.
