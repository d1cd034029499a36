(** Properties of the dates of files. *)
From Verif Require Import Base GoStr Strconv Pattern Tree TreeSpec Header Router RouterSpec PathClean Ctx Util UtilSpec Content
  TraceSpec Engine EngineSpec ServeThms StaticReg Static StaticSpec StaticTop NetServe NetRange RangeSpec NetRangeFacts CondSpec CondTop
  NetDate DateSpec DateLooseSpec DateFacts DateLoose DateTop ExampleRegexp ExampleRouter ExampleServe PropStatic PropCond.
Local Open Scope Z_scope.

(** ** The example: the date of RFC 7231 *)
Definition fl_then : Z := 784111777.
Definition fl_text : gostr := L "Sun, 06 Nov 1994 08:49:37 GMT".
Notation fl_time := (net_parse_time (fun _ => None)).
Notation fl_send := (net_send true (fun f : gostr => f) (fun _ => L "text/plain") (L "xyz")).
Definition fl_serve := net_serve fl_time (fun _ : gostr => Some fl_then) net_date fl_send.
Definition fl_code (h : handler nat) : prog gostr := static_handler fx_location fx_page fl_serve fx_file fx_opts fx_open [].
Notation fl_run e hd := (ServeHTTP ex_find ex_sniff ex_form fl_code e 0 newContext (arrive (ux_req hd) no_body)).
Notation fl_asks := (file_request ex_ok ex_find ex_sniff ex_form fl_code fx_location fx_page fl_time (fun _ => Some fl_then) net_date fl_send fx_file).
Definition fl_seen (e : engine nat) (hd : header) : Z * gostr * gostr :=
  let c := (fl_run e hd).2 in
  match rw_sent (cn_rw c) with Some (n, h) => (n, h_get h (L "Last-Modified"), rw_body (cn_rw c)) | None => (0, [], rw_body (cn_rw c)) end.
Lemma fl_asked : exists e, engine_of ex_ok fx_ops 0 [] e /\
  forall hd, h_get hd (L "Expect") = [] -> fl_asks e (ux_req hd) (L "7-3") (L "abc") (fl_run e hd).2.
Proof.
  destruct fx_engine as (e & v & He & _ & Hv & Hh & Hsole). exists e. split; [done|]. intros hd Hx.
  assert (sole_route ex_ok ex_find e v (ux_req hd)) as Hs by (exact (Hsole (L "/f/a.txt") [L "a.txt"] eq_refl ltac:(done))).
  assert (file_name [L "f"] (ux_req hd) (L "a.txt")) as Hn by (by exists [L "a.txt"]).
  assert (forall n, ~ refused (ux_req hd) n) as Hr.
  { intros n [[H|[H|H]]|_ H]; [destruct H as [H|[_ H]]; discriminate H|discriminate H|discriminate H|].
    apply H. by left. }
  destruct (fl_run e hd) as [[en px] c'] eqn:H.
  eexists fx_ops, _, _, _, _, _, _, _, v, _, _, fx_opts, _, _, _, _, _, _.
  split; [exact He|]. split; [exact H|]. split; [exact Hr|]. split; [exact Hs|]. split; [exact fx_literal|]. split; [exact Hv|].
  split; [exact Hh|]. split; [reflexivity|]. split; [by left|]. split; [exact Hn|]. split; [reflexivity|]. split; [done|reflexivity].
Qed.
Lemma fl_years : four_digits fl_then.
Proof.
  exists (-719528), 2932897. split; [exact (falls_absDate (-719528))|]. split; [exact (falls_absDate 2932897)|]. unfold fl_then. lia.
Qed.

(** ** C121 *)
(** The date that is written for a moment of the years 0 to 9999 is its date in the
    calendar (a day after the other, from 1 January 1970, a Thursday), in the form of
    RFC 7231. *)
Theorem C121_written : forall t, four_digits t -> fixdate (net_date t) t.
Proof. exact net_date_fixdate. Qed.
Print Assumptions C121_written.

(** A date in this form, whoever wrote it, is read as the moment that it means, whatever
    other forms are understood. *)
Theorem C121_read : forall other s t, fixdate s t -> net_parse_time other s = Some t.
Proof. intros other s t H. unfold net_parse_time. by rewrite (fixdate_reads s t H). Qed.
Print Assumptions C121_read.

(** More than these are read: with names in either case, the name of any day, more spaces,
    hours with one digit and parts of seconds (DateLooseSpec.loose_date); all these are,
    and nothing else but what has one of the other forms. *)
Theorem C121_all_read :
  forall other s,
  (forall t, loose_date s t -> net_parse_time other s = Some t) /\
  ((forall t, ~ loose_date s t) -> net_parse_time other s = other s).
Proof.
  intros other s. unfold net_parse_time. split.
  - intros t H. by rewrite (loose_read s t H).
  - intros H. destruct (parse_fixdate s) as [t|] eqn:E; [|done]. exfalso. exact (H t (read_loose s t E)).
Qed.
Print Assumptions C121_all_read.

(** A text is the date of one moment, and a date in the calendar is that of one day. *)
Theorem C121_one_moment :
  (forall s t t', fixdate s t -> fixdate s t' -> t = t') /\ (forall k k' D, falls k D -> falls k' D -> k = k').
Proof. split; [intros s t t' H H'; exact (proj2 (fixdate_text s t H) t' H')|exact falls_day]. Qed.
Print Assumptions C121_one_moment.

(** A file of a static route with tags is asked for; its Last-Modified is the date of
    its modification.  Then a file (the same or another, on the same or another engine) is
    asked for with this date as the only condition.  If-Modified-Since: 304 without a body
    if it is not newer, else the content.  If-Unmodified-Since: 412 if it is newer, else
    the content.  If-Range: all of it if it was modified at another time, else the parts
    asked for (net_send, see C109). *)
Theorem C121_revisit_partial :
  forall other, (forall s u, other s = Some u -> """"%char ∉ s) ->
  forall (A V F O : Type) re_ok re_find sniff parse_form (code : handler A -> prog V) location page (modtime : F -> option Z)
    strict content ctype bnd (serve_file : request -> gostr -> gostr -> gostr -> gostr -> O -> list (gostr * option gostr) * Z * list gostr),
  (forall r t etag enc p os, 100 <= (serve_file r t etag enc p os).1.2 <= 999) ->
  let send := net_send strict content ctype bnd in
  let asks := file_request re_ok re_find sniff parse_form code location page (net_parse_time other) modtime net_date send serve_file in
  forall e1 r1 T1 f1 c1 t1, asks e1 r1 T1 f1 c1 -> unconditional (h_get (rq_header r1)) ->
  modtime f1 = Some t1 -> four_digits t1 ->
  exists n1 hd1, rw_sent (cn_rw c1) = Some (n1, hd1) /\ fixdate (h_get hd1 (L "Last-Modified")) t1 /\
  forall e2 r2 T2 f2 c2 t2, asks e2 r2 T2 f2 c2 -> modtime f2 = Some t2 ->
  (only_condition (h_get (rq_header r2)) (L "If-Modified-Since") (h_get hd1 (L "Last-Modified")) ->
     (t2 <= t1 -> rw_body (cn_rw c2) = [] /\ exists hd, rw_sent (cn_rw c2) = Some (304, hd)) /\
     (t1 < t2 -> h_get (rq_header r2) (L "Range") = [] ->
        (exists hd, rw_sent (cn_rw c2) = Some (200, hd)) /\ (rq_method r2 = L "GET" -> rw_body (cn_rw c2) = content f2))) /\
  (only_condition (h_get (rq_header r2)) (L "If-Unmodified-Since") (h_get hd1 (L "Last-Modified")) ->
     (t1 < t2 -> rw_body (cn_rw c2) = [] /\ exists hd, rw_sent (cn_rw c2) = Some (412, hd)) /\
     (t2 <= t1 -> h_get (rq_header r2) (L "Range") = [] ->
        (exists hd, rw_sent (cn_rw c2) = Some (200, hd)) /\ (rq_method r2 = L "GET" -> rw_body (cn_rw c2) = content f2))) /\
  (only_condition (h_get (rq_header r2)) (L "If-Range") (h_get hd1 (L "Last-Modified")) ->
     (t1 <> t2 -> (exists hd, rw_sent (cn_rw c2) = Some (200, hd)) /\ (rq_method r2 = L "GET" -> rw_body (cn_rw c2) = content f2)) /\
     (t1 = t2 -> forall hs n out, send r2 [] [] f2 (h_get (rq_header r2) (L "Range")) = (hs, n, out) ->
        (exists hd, rw_sent (cn_rw c2) = Some (n, hd)) /\ rw_body (cn_rw c2) = concat out)).
Proof. intros. eapply revisit; eassumption. Qed.
Print Assumptions C121_revisit_partial.

(** *** A case that meets the hypotheses: the file is asked for, then with its date, and
    with dates a second before *)
Example C121_case :
  four_digits fl_then /\ net_date fl_then = fl_text /\ fl_time fl_text = Some fl_then /\
  falls 9075 (1994, 11, 6) /\ loose_date (L "sun,  06 NOV 1994 8:49:37.5 GMT") fl_then /\ (forall t, ~ loose_date (L "Sun, 31 Nov 1994 08:49:37 GMT") t) /\
  fl_time (L "sun,  06 NOV 1994 8:49:37.5 GMT") = Some fl_then /\ fl_time (L "Sun, 31 Nov 1994 08:49:37 GMT") = None /\
  net_date 951782400 = L "Tue, 29 Feb 2000 00:00:00 GMT" /\ net_date (-2203891201) = L "Wed, 28 Feb 1900 23:59:59 GMT" /\
  unconditional (h_get (rq_header (ux_req ∅))) /\
  only_condition (h_get {[ L "If-Modified-Since" := [fl_text] ]}) (L "If-Modified-Since") fl_text /\
  exists e, (forall hd, h_get hd (L "Expect") = [] -> fl_asks e (ux_req hd) (L "7-3") (L "abc") (fl_run e hd).2) /\
  map (fl_seen e) [ ∅; {[ L "If-Modified-Since" := [fl_text] ]}; {[ L "If-Modified-Since" := [net_date (fl_then - 1)] ]};
     {[ L "If-Unmodified-Since" := [fl_text] ]}; {[ L "If-Unmodified-Since" := [net_date (fl_then - 1)] ]};
     <[ L "Range" := [L "bytes=1-"] ]> {[ L "If-Range" := [fl_text] ]}; <[ L "Range" := [L "bytes=1-"] ]> {[ L "If-Range" := [net_date (fl_then - 1)] ]} ] =
  [(200, fl_text, L "abc"); (304, [], []); (200, fl_text, L "abc"); (200, fl_text, L "abc"); (412, fl_text, []); (206, fl_text, L "bc"); (200, fl_text, L "abc")].
Proof.
  split; [exact fl_years|]. split; [by vm_compute|]. split; [by vm_compute|]. split; [exact (falls_absDate 9075)|].
  split; [apply read_loose; by vm_compute|]. split; [intros t H; apply loose_read in H; vm_compute in H; discriminate|].
  split; [by vm_compute|]. split; [by vm_compute|]. split; [by vm_compute|]. split; [by vm_compute|].
  split; [by vm_compute|]. split.
  { split; [by vm_compute|]. intros k Hk Hne. repeat (apply elem_of_cons in Hk as [->|Hk]; [try done; by vm_compute|]). by apply elem_of_nil in Hk. }
  destruct fl_asked as (e & He & Ha). exists e. split; [exact Ha|].
  apply (with_engine_fun ex_ok fx_ops [] (fun e => map (fl_seen e) [ ∅; {[ L "If-Modified-Since" := [fl_text] ]}; {[ L "If-Modified-Since" := [net_date (fl_then - 1)] ]};
     {[ L "If-Unmodified-Since" := [fl_text] ]}; {[ L "If-Unmodified-Since" := [net_date (fl_then - 1)] ]};
     <[ L "Range" := [L "bytes=1-"] ]> {[ L "If-Range" := [fl_text] ]}; <[ L "Range" := [L "bytes=1-"] ]> {[ L "If-Range" := [net_date (fl_then - 1)] ]} ]) _ e);
    [vm_compute; reflexivity|exact He].
Qed.
