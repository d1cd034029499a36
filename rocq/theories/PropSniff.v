(** Properties of replies whose type net/http guesses, over a model of its guess. *)
From Verif Require Import Base GoStr Strconv Util Pattern Tree TreeSpec Header Router RouterSpec Ctx CtxFacts TraceSpec
  Engine EngineSpec ServeTop ServeThms Content ContentFacts HelperSpec HelperFacts HelperLog NetSniff SniffSpec SniffFacts
  ExampleRegexp ExampleRouter ExampleServe PropMiddleware PropBehind.
Local Open Scope Z_scope.

(** ** C113: text is not taken for a page *)
(** the example: handlers that reply with text, a page, and a value as JSON *)
Definition fb_font : gostr := L "{""title"":""a book of prayers and HELP""}".
Definition fb_code (h : handler nat) : prog gostr :=
  match h with
  | HFuncCtx 0%nat => String_ 200 (L "<script>alert(1)</script>") PRet
  | HFuncCtx 1%nat => HTMLRaw 200 (L "<h2>Hi</h2>") PRet
  | HFuncCtx 2%nat => JSON 200 [L "{""a"":1}"; ["010"%char]] true (fun _ => PRet)
  | HFuncCtx 3%nat => JSON 200 [fb_font; ["010"%char]] true (fun _ => PRet)
  | _ => String_ 200 (L "5 < 6") PRet
  end.
Notation fb_run e := (ServeHTTP ex_find DetectContentType ex_form fb_code e 0 mx_new (arrive (mx_req (L "GET") []) no_body)).
Definition fb_reply (i : nat) (t s ty : gostr) : Prop :=
  exists e en px c', engine_of ex_ok (mx_ops [i]) 0 [] e /\ fb_run e = (en, px, c') /\ starts (cn_log c') <> [] /\
  (forall hs, dispatched ex_ok ex_find e (mx_req (L "GET") []) hs -> hs = [HFuncCtx i]) /\ helps (fb_code (HFuncCtx i)) 200 t s /\
  finish DetectContentType (cn_rw c') = (200, {[ L "Content-Type" := [ty] ]}, s).
Lemma fb_engine i t s ty :
  with_engine ex_ok (mx_ops [i]) [] (fun e => (chains e, let '(_, _, c') := fb_run e in
    starts (cn_log c'))) = Some (([(L "GET", [HFuncCtx i]); (L "OPTIONS", [HFuncCtx i])], []), [0%nat]) ->
  helps (fb_code (HFuncCtx i)) 200 t s -> s <> [] -> DetectContentType s = ty -> fb_reply i t s ty.
Proof.
  intros Hw Hh Hne Ht. apply with_engine_split in Hw as (e & He & Hs). apply pair_equal_spec in Hs as [Hc Hs]. destruct (fb_run e) as [[en px] c'] eqn:Er.
  exists e, en, px, c'. split; [exact He|]. split; [exact Er|]. assert (starts (cn_log c') <> []) as Hst by (by rewrite Hs). split; [done|].
  assert (forall hs, dispatched ex_ok ex_find e (mx_req (L "GET") []) hs -> hs = [HFuncCtx i]) as Hd.
  { intros hs Hd. apply (dispatched_chains _ _ _ _ _ _ Hc) in Hd. rewrite !elem_of_cons, elem_of_nil in Hd. by destruct Hd as [[= ->]|[[= ->]|[]]]. }
  split; [exact Hd|]. split; [exact Hh|].
  assert (finish DetectContentType (cn_rw c') = if bears_body 200 then (200, if decide (s = []) then ∅ else {[ L "Content-Type" := [DetectContentType s] ]}, s) else (200, ∅, [])) as E.
  { eapply (C20_response_helpers_partial nat gostr ex_ok ex_find DetectContentType ex_form fb_code); [exact He|exact Er|exact Hst| |reflexivity].
    intros hs Hx. exists (HFuncCtx i). split; [by apply Hd|exact Hh]. }
  rewrite E. change (bears_body 200) with true. cbv iota. rewrite decide_False by exact Hne. by rewrite Ht.
Qed.
Ltac fb_tac := apply fb_engine; [vm_compute; reflexivity|constructor|done|vm_compute; reflexivity].

(** A text of String can be a page to the client, and a page of HTMLRaw a text. *)
Theorem C113_refuted :
  (exists s, fb_reply 0 plain_type s html_type) /\ (exists s, fb_reply 1 html_type s plain_type).
Proof.
  split.
  - exists (L "<script>alert(1)</script>"). fb_tac.
  - exists (L "<h2>Hi</h2>"). fb_tac.
Qed.
Print Assumptions C113_refuted.
(** What holds: the client is told exactly what follows, whichever helper is used.  It is
    told of a page if and only if the text begins with one of some tags; of a text, for
    texts without control characters, if and only if it begins with none of them, with
    no declaration of XML and not as files of other formats do; of JSON or XML never. *)
Theorem C113_told_partial :
  forall (A V : Type) re_ok re_find parse_form (code : handler A -> prog V) ops r0 opts e id x r body en px c' n t s,
  engine_of re_ok ops r0 opts e ->
  ServeHTTP re_find DetectContentType parse_form code e id x (arrive r body) = (en, px, c') -> starts (cn_log c') <> [] ->
  (forall hs, dispatched re_ok re_find e r hs -> exists h, hs = [h] /\ helps (code h) n t s) ->
  proper_code n = true -> bears_body n = true -> s <> [] ->
  exists ty, finish DetectContentType (cn_rw c') = (n, {[ L "Content-Type" := [ty] ]}, s) /\ told s ty.
Proof.
  intros A V re_ok re_find parse_form code ops r0 opts e id x r body en px c' n t s He Hrun Hs Hd Hn Hb Hne.
  exists (DetectContentType s). split; [|apply detect_told].
  destruct (C20_response_helpers_partial _ _ _ _ _ _ _ _ _ _ _ _ _ _ _ _ _ _ _ _ _ He Hrun Hs Hd Hn) as [_ ->]. rewrite Hb. by rewrite decide_False.
Qed.
Print Assumptions C113_told_partial.
(** So with helpers in handlers behind others that have not answered nor set a type. *)
Theorem C113_behind_partial :
  forall (A V : Type) re_ok re_find parse_form (code : handler A -> prog V) ops r0 opts e id x r body en px c' n s k i l1 l2,
  engine_of re_ok ops r0 opts e ->
  ServeHTTP re_find DetectContentType parse_form code e id x (arrive r body) = (en, px, c') -> uses_ctx code e ->
  (forall hs, dispatched re_ok re_find e r hs -> exists g, hs !! i = Some g /\ answers_then (code g) n s k) ->
  cn_log c' = l1 ++ EvStart i :: l2 -> ~ responded l1 -> 100 <= n <= 999 -> ~ bodiless n -> s <> [] ->
  headers_of l1 !! L "Content-Type" = None ->
  h_get (headers_of l1) (L "Content-Encoding") = [] -> h_get (headers_of l1) (L "Transfer-Encoding") = [] ->
  exists hd text ty, finish DetectContentType (cn_rw c') = (n, hd, s ++ text) /\ h_values hd (L "Content-Type") = [ty] /\ told (s ++ text) ty.
Proof.
  intros A V re_ok re_find parse_form code ops r0 opts e id x r body en px c' n s k i l1 l2 He Hrun Hu Hd Hlog Hr Hn Hb Hne Ht Hce Hte.
  destruct (C20_behind_partial _ _ _ _ _ _ _ _ _ _ _ _ _ _ _ _ _ _ _ _ _ _ _ _ He Hrun Hu Hd Hlog Hr Hn) as (m & l3 & _ & _ & Hsent & _ & Hbody).
  specialize (Hbody Hb). unfold finish. rewrite Hsent, Hbody. eexists _, (data_of l3), (DetectContentType (s ++ data_of l3)). split; [reflexivity|]. split; [|apply detect_told].
  rewrite bool_decide_eq_true_2 by exact Ht. rewrite Hce, Hte. destruct (s ++ data_of l3) as [|a y] eqn:E; [by apply app_eq_nil in E as [-> _]|].
  change (negb (length (a :: y) =? 0)%nat && true && seqb [] [] && seqb [] []) with true. cbv iota. unfold h_values, h_set. by rewrite lookup_insert.
Qed.
Print Assumptions C113_behind_partial.
(** Text that does not begin with a tag is no page; without control characters, and if
    it does not begin as a file of another format, it is text. *)
Theorem C113_text_partial :
  forall s ty, told s ty -> ~ opens_tag s -> ty <> html_type /\ ty <> xml_type /\
  (Forall text_byte (take (2 ^ 9)%nat s) -> ~ marked s -> ty = plain_type).
Proof. exact told_text. Qed.
Print Assumptions C113_text_partial.
(** JSON is text to the client, unless the letters LP stand at one place. *)
Theorem C113_json_partial :
  forall s ty, told s ty -> json_like s -> Forall text_byte (take (2 ^ 9)%nat s) -> (forall x, length x = 34%nat -> ~ starts_with (x ++ L "LP") s) -> ty = plain_type.
Proof. exact told_json. Qed.
Print Assumptions C113_json_partial.
(** [told] says what the type is of all texts without control characters that begin
    with a tag, a declaration or none of the formats. *)
Theorem C113_determined :
  forall s ty ty', told s ty -> told s ty' -> Forall text_byte (take (2 ^ 9)%nat s) -> ~ marked s -> ty = ty'.
Proof. exact told_fun. Qed.
Print Assumptions C113_determined.

Example C113_case :
  fb_reply 2 (L "application/json; charset=utf-8") (L "{""a"":1}" ++ ["010"%char]) plain_type /\
  fb_reply 3 (L "application/json; charset=utf-8") (fb_font ++ ["010"%char]) (L "application/vnd.ms-fontobject") /\
  fb_reply 4 plain_type (L "5 < 6") plain_type /\
  ~ opens_tag (L "5 < 6") /\ Forall text_byte (L "5 < 6") /\ ~ marked (L "5 < 6") /\
  page_start (L "  <P class=x>") /\ xml_start (L " <?xml?>") /\
  json_like (L "{""a"":1}") /\ (forall x, length x = 34%nat -> ~ starts_with (x ++ L "LP") (L "{""a"":1}")).
Proof.
  assert (~ opens_tag (L "5 < 6")) as Ho.
  { intros (w & rest & E & Hw). destruct w as [|a w]; [discriminate E|]. injection E as <- _. apply Forall_cons_1 in Hw as [Hw _]. revert Hw.
    apply (bool_decide_eq_true _). vm_compute. reflexivity. }
  assert (Forall text_byte (L "5 < 6")) as Ht by (repeat constructor; left; apply Nat.leb_le; reflexivity).
  split_and!; [fb_tac|fb_tac|fb_tac|done|done| | | | |].
  - intros Hm. assert (DetectContentType (L "5 < 6") = plain_type) as E by (vm_compute; reflexivity).
    destruct (detect_told (L "5 < 6")) as (_ & _ & H & _). apply H in E as (_ & _ & Hn); [done| |].
    + exact Ht.
    + intros (r & E'). discriminate E'.
  - exists (L "  "), (L "<P"), " "%char, (L "class=x>"). split_and!; [reflexivity| | |by left|apply Nat.ltb_lt; reflexivity].
    + repeat constructor; apply (bool_decide_eq_true _); vm_compute; reflexivity.
    + apply (bool_decide_eq_true _); vm_compute; reflexivity.
  - exists (L " "), (L "?>"). split_and!; [reflexivity| |apply Nat.leb_le; reflexivity]. repeat constructor; apply (bool_decide_eq_true _); vm_compute; reflexivity.
  - exists "{"%char, (L """a"":1}"). split_and!; [reflexivity|apply (bool_decide_eq_true _); vm_compute; reflexivity|]. intros (r & E). discriminate E.
  - intros x Hx (r & E). apply (f_equal length) in E. rewrite !app_length, Hx in E. vm_compute in E. lia.
Qed.
