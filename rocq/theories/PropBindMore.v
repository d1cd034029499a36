(** Further properties of binding: what each binder reads, times, and targets that
    cannot be filled. *)
From Coq Require Import ZArith NArith.
From Verif Require Import Base GoStr Strconv Header UtilSpec StrconvFacts UtilFacts Pattern Tree Router Ctx Util Binding BindCtx
  BindingSpec BindingFacts BindingMore BindingTop ExampleBinding BodySpec.

(** ** C66: what a binder reads *)
(** ctx.BindWith with a binder for forms, queries or headers parses the form if
    that has not been done (a parse error panics, also when the form is not
    needed) and fills the object from the part that belongs to the binder. *)
Theorem C66_values :
  forall (A V D : Type) (G : golib D) mform query json_body xml_body sniff parse_form
    fuel obj k next (x : ctxobj A V) (c : conn V) b f ok rest form files tag,
  x_parsed x = false -> parse_form (is_multipart (cn_req c)) (cn_req c) (unread (cn_body c)) = (f, ok, rest) ->
  reads mform query (cn_req c) f b form files tag ->
  let bind := pexec sniff parse_form next (BindWith G mform query json_body xml_body fuel obj b k) x c in
  (ok = false -> exists v x' c', bind = (EThrow (Some v), (x', c')) /\ cn_rw c' = cn_rw c) /\
  (ok = true -> exists out c', bind = pexec sniff parse_form next (k out) (set_parsed x) c' /\
    filled G fuel obj form files tag out /\
    cn_req c' = cn_req c /\ cn_rw c' = cn_rw c /\ cn_body c' = mkBody rest (bd_feed (cn_body c)) /\ cn_form c' = Some f).
Proof. intros. by apply bindwith. Qed.
Print Assumptions C66_values.
(** The same once the form has been parsed: nothing is read again. *)
Theorem C66_values_again :
  forall (A V D : Type) (G : golib D) mform query json_body xml_body sniff parse_form
    fuel obj k next (x : ctxobj A V) (c : conn V) b f form files tag,
  x_parsed x = true -> cn_form c = Some f -> reads mform query (cn_req c) f b form files tag ->
  exists out c', pexec sniff parse_form next (BindWith G mform query json_body xml_body fuel obj b k) x c = pexec sniff parse_form next (k out) x c' /\
    filled G fuel obj form files tag out /\
    cn_req c' = cn_req c /\ cn_rw c' = cn_rw c /\ cn_body c' = cn_body c /\ cn_form c' = cn_form c.
Proof. intros. by apply (bindwith_parsed G mform query json_body xml_body sniff parse_form fuel obj k next x c b f form files tag). Qed.
Print Assumptions C66_values_again.
(** The multipart binder on a request that is no upload: an error, and the target is
    left alone. *)
Theorem C66_no_upload :
  forall (A V D : Type) (G : golib D) mform query json_body xml_body sniff parse_form
    fuel obj k next (x : ctxobj A V) (c : conn V) f ok rest,
  mform (cn_req c) = None ->
  x_parsed x = false -> parse_form (is_multipart (cn_req c)) (cn_req c) (unread (cn_body c)) = (f, ok, rest) ->
  let bind := pexec sniff parse_form next (BindWith G mform query json_body xml_body fuel obj BMultipart k) x c in
  (ok = false -> exists v x' c', bind = (EThrow (Some v), (x', c')) /\ cn_rw c' = cn_rw c) /\
  (ok = true -> exists c', bind = pexec sniff parse_form next (k (obj, BErr EForm)) (set_parsed x) c' /\
    cn_req c' = cn_req c /\ cn_rw c' = cn_rw c /\ cn_form c' = Some f).
Proof. intros. by apply (bindwith_none G mform query json_body xml_body sniff parse_form fuel obj k next x c f ok rest). Qed.
Print Assumptions C66_no_upload.
(** ctx.BindWith with JSON or XML decodes the unread body whatever the method and
    the Content-Type are, and leaves the form alone. *)
Theorem C66_body :
  forall (A V D : Type) (G : golib D) mform query json_body xml_body sniff parse_form
    fuel obj k next (x : ctxobj A V) (c : conn V) b,
  b = BJSON \/ b = BXML ->
  let '(obj', ok) := (if decide (b = BJSON) then json_body else xml_body) (unread (cn_body c)) obj in
  exists out c', pexec sniff parse_form next (BindWith G mform query json_body xml_body fuel obj b k) x c = pexec sniff parse_form next (k out) x c' /\
    (ok = false -> out = (obj', BErr EDecode)) /\ (ok = true -> then_validated G obj' out) /\
    cn_req c' = cn_req c /\ cn_rw c' = cn_rw c /\ cn_body c' = spent (cn_body c) /\ cn_form c' = cn_form c.
Proof. intros. by apply bindwith_body. Qed.
Print Assumptions C66_body.
(** The binder for path parameters reads the given map, with the tag "uri". *)
Theorem C66_uri :
  forall D (G : golib D) fuel m obj, filled G fuel obj m ∅ (L "uri") (uri_Bind G fuel m obj).
Proof. intros. apply uri_filled. Qed.
Print Assumptions C66_uri.
Definition bh_type : gotype := TStruct [(mkField (L "N") true false [(L "header", L "x-count"); (L "form", L "n"); (L "uri", L "id")], TInt 64)].
Definition bh_obj (z : Z) : option (gotype * goval Z) := Some (TPtr bh_type, VPtr (Some (VStruct [VNum z]))).
Definition bh_req : request := mkReq (L "GET") 1 1 [] [] {[ L "X-Count" := [L "5"] ]} [] false.
(** one struct, three tags, three parts of a request *)
Example C66_example :
  let q := fun _ : request => {[ L "n" := [L "6"] ]} : gmap gostr (list gostr) in
  let mf := fun _ : request => Some (∅ : gmap gostr (list gostr), ∅ : gmap gostr (list Z)) in
  reads mf q bh_req ∅ BHeader {[ L "X-Count" := [L "5"] ]} ∅ (L "header") /\
  reads mf q bh_req ∅ BQuery {[ L "n" := [L "6"] ]} ∅ (L "form") /\
  filled bx_lib 3 (bh_obj 0) {[ L "X-Count" := [L "5"] ]} ∅ (L "header") (bh_obj 5, BOk) /\
  filled bx_lib 3 (bh_obj 0) {[ L "n" := [L "6"] ]} ∅ (L "form") (bh_obj 6, BOk) /\
  filled bx_lib 3 (bh_obj 0) {[ L "id" := [L "8"] ]} ∅ (L "uri") (bh_obj 8, BOk) /\
  uri_Bind bx_lib 3 {[ L "id" := [L "7"] ]} (bh_obj 0) = (bh_obj 7, BErr (EInvalid 0)).
Proof.
  assert (forall m tag z, MapForm bx_lib 3 (bh_obj 0) m (map_to_list m) ∅ tag = (bh_obj z, BOk) -> validate bx_lib (bh_obj z) = Ok None ->
    filled bx_lib 3 (bh_obj 0) m ∅ tag (bh_obj z, BOk)) as H.
  { intros m tag z E Ev. exists (map_to_list m). split; [by unfold visits|]. rewrite E. split; [done|]. intros _. unfold then_validated. rewrite Ev. done. }
  cbv zeta. split_and!; try (apply H; vm_compute; reflexivity).
  - apply (reads_header _ _ bh_req).
  - apply (reads_query _ (fun _ => {[ L "n" := [L "6"] ]})).
  - vm_compute. reflexivity.
Qed.

(** ** C67: times *)
(** On success a time (or what a pointer to a time points to, nil before or not)
    is the instant that the first text stands for; and so for each element of a
    slice of times. *)
Theorem C67_times :
  forall D (G : golib D) fuel e fs v v' form order files tag p fl f u w vals,
  wf_lib G -> resolve G e = TStruct fs -> wf_type (TStruct fs) -> typed G (TStruct fs) v ->
  place G (TStruct fs) v p fl f u w -> Forall (fun g => ~ selected form files tag g) fl ->
  f_exported f = true -> f_anon f = false -> texts form tag f vals ->
  MapForm G fuel (Some (TPtr e, VPtr (Some v))) form order files tag = (Some (TPtr e, VPtr (Some v')), BOk) ->
  (time_field G u -> exists s rest w', vals = s :: rest /\ value_at v' p = Some w' /\ shows G f u s w') /\
  (forall e', u = TSlice e' -> time_field G (resolve G e') -> exists l, vals <> [] /\ value_at v' p = Some (VSlice (Some l)) /\
     Forall2 (shows G f (resolve G e')) vals l).
Proof. intros D G fuel e fs v v' form order files tag p fl f u w vals. apply timed. Qed.
Print Assumptions C67_times.
(** What a text stands for is determined by the field and the text. *)
Theorem C67_one_instant :
  forall D (G : golib D) f s d d', instant G f s d -> instant G f s d' -> d = d'.
Proof. intros D G f s d d' H H'. apply (time_ok G f (L "form")) in H, H'. congruence. Qed.
Print Assumptions C67_one_instant.
Definition tx_lib : golib (Z * Z) := mkLib _ (fun _ => TOther) (fun _ => (0, 0)%Z) (fun _ _ => None) (fun _ _ v => (v, false))
  (fun a b => (a, b)) (fun layout s z => if seqb layout (L "2006-01-02T15:04:05Z07:00") then Some (Z.of_nat (length s), match z with ZUTC => 1 | ZLocal => 2 | ZNamed n => 3 end)%Z else None)
  (fun _ => None) (fun n => seqb n (L "Asia/Tokyo")) (fun _ _ => None).
Definition tx_field (n : gostr) (tags : list (gostr * gostr)) : field := mkField n true false ((L "form", n) :: tags).
(** struct { A time.Time `form:"A" time_format:"unixNano"`; B *time.Time `form:"B" time_utc:"1"`;
    C []time.Time `form:"C" time_location:"Asia/Tokyo"`; D time.Time `form:"D"` } *)
Definition tx_fields : list (field * gotype) :=
  [(tx_field (L "A") [(L "time_format", L "unixNano")], TTime); (tx_field (L "B") [(L "time_utc", L "1")], TPtr TTime);
   (tx_field (L "C") [(L "time_location", L "Asia/Tokyo")], TSlice TTime); (tx_field (L "D") [], TTime)].
Example C67_example :
  MapForm tx_lib 2 (Some (TPtr (TStruct tx_fields), VPtr (Some (VStruct [VOpaque (9, 9); VPtr None; VSlice None; VOpaque (9, 9)]%Z))))
    {[ L "A" := [L "-1500000000"]; L "B" := [L "x"]; L "C" := [L "ab"; []]; L "D" := [L "abc"] ]} [] ∅ (L "form") =
  (Some (TPtr (TStruct tx_fields), VPtr (Some (VStruct [VOpaque (-1, -500000000); VPtr (Some (VOpaque (1, 1))); VSlice (Some [VOpaque (2, 3); VOpaque (0, 0)]); VOpaque (3, 2)]%Z))), BOk) /\
  place tx_lib (TStruct tx_fields) (VStruct [VOpaque (9, 9); VPtr None; VSlice None; VOpaque (9, 9)]%Z) [1%nat] [] (tx_field (L "B") [(L "time_utc", L "1")]) (TPtr TTime) (VPtr None) /\
  (forall d, ~ instant tx_lib (tx_field (L "A") [(L "time_format", L "unixNano")]) [] d) /\
  (forall d, ~ instant tx_lib (tx_field (L "A") [(L "time_location", L "Mars")]) (L "x") d).
Proof.
  split_and!; [vm_compute; reflexivity|by apply place_here| |]; intros d H; apply (time_ok tx_lib _ (L "form")) in H; vm_compute in H; discriminate.
Qed.

(** ** C68: refusing instead of panicking *)
(** nil, values that are not pointers, and pointers to anything but structs and
    string maps are refused and stay what they were, whatever the form is. *)
Theorem C68_refused :
  forall D (G : golib D) fuel form order files tag,
  MapForm G fuel None form order files tag = (None, BErr ENilObj) /\
  (forall t v, (forall e, t <> TPtr e) -> MapForm G fuel (Some (t, v)) form order files tag = (Some (t, v), BErr ENeedPtr)) /\
  (forall e v, (forall fs, resolve G e <> TStruct fs) -> resolve G e ∉ [TTime; TFile; TMapS; TMapL] -> (forall b, resolve G e <> TMap true b) ->
     MapForm G fuel (Some (TPtr e, VPtr (Some v))) form order files tag = (Some (TPtr e, VPtr (Some v)), BErr ENeedStruct)) /\
  (forall e v b, resolve G e = TMap true b ->
     MapForm G fuel (Some (TPtr e, VPtr (Some v))) form order files tag = (Some (TPtr e, VPtr (Some v)), BErr EMap)).
Proof.
  intros D G fuel form order files tag. split_and!; [done| | |].
  - intros t v H. destruct t; try done. by destruct (H t).
  - intros e v H1 H2 H3. unfold MapForm. rewrite !not_elem_of_cons in H2. destruct H2 as (N1 & N2 & N3 & N4 & _).
    destruct (resolve G e) as [| | | | | | | |fs| | | | | |[] b| | |]; try done; [by destruct (H1 fs)|by destruct (H3 b)].
  - intros e v b E. unfold MapForm. rewrite E. done.
Qed.
Print Assumptions C68_refused.
(** A struct without embedded fields is filled or refused, but the call does not
    panic, if every key of the form and of the files has at least one value. *)
Theorem C68_no_panic_partial :
  forall D (G : golib D) fuel e fs v form order files tag msg,
  wf_lib G -> resolve G e = TStruct fs -> wf_type (TStruct fs) -> typed G (TStruct fs) v -> full form -> full files ->
  (forall p fl f u w, place G (TStruct fs) v p fl f u w -> f_anon f = false) ->
  snd (MapForm G fuel (Some (TPtr e, VPtr (Some v))) form order files tag) <> BPanic msg.
Proof. intros D G fuel e fs v form order files tag msg. apply no_panic. Qed.
Print Assumptions C68_no_panic_partial.
(** A nil pointer panics; so do a key without values, an embedded value that is not
    a struct, and an embedded nil pointer of an unexported type. *)
Theorem C68_refuted :
  (forall D (G : golib D) fuel e form order files tag, exists msg, MapForm G fuel (Some (TPtr e, VPtr None)) form order files tag = (Some (TPtr e, VPtr None), BPanic msg)) /\
  exists (G : golib Z) e1 e2 e3 v1 v2 v3 form, wf_lib G /\
    (wf_type e1 /\ typed G e1 v1) /\ (wf_type e2 /\ typed G e2 v2) /\ (wf_type e3 /\ typed G e3 v3) /\
    form !! L "n" = Some [] /\
    e1 = TStruct [(bx_field (L "N") (L "n"), TInt 64)] /\
    e2 = TStruct [(mkField (L "Name") true true [], TString)] /\
    e3 = TStruct [(mkField (L "in") false true [], TPtr e1)] /\ v3 = VStruct [VPtr None] /\
    (forall n order files, (2 <= n)%nat ->
      (exists msg, snd (MapForm G n (Some (TPtr e1, VPtr (Some v1))) form order files (L "form")) = BPanic msg) /\
      (exists msg, snd (MapForm G n (Some (TPtr e2, VPtr (Some v2))) ∅ [] files (L "form")) = BPanic msg) /\
      (exists msg, snd (MapForm G n (Some (TPtr e3, VPtr (Some v3))) ∅ [] files (L "form")) = BPanic msg)).
Proof.
  split; [intros; eexists; reflexivity|].
  exists bx_lib, (TStruct [(bx_field (L "N") (L "n"), TInt 64)]), (TStruct [(mkField (L "Name") true true [], TString)]),
    (TStruct [(mkField (L "in") false true [], TPtr (TStruct [(bx_field (L "N") (L "n"), TInt 64)]))]),
    (VStruct [VNum 0]), (VStruct [VString []]), (VStruct [VPtr None]), {[ L "n" := [] ]}.
  split; [apply bx_wf_lib|]. split_and!; try done.
  - cbn. rewrite !elem_of_cons. tauto.
  - repeat constructor; vm_compute; congruence.
  - repeat constructor.
  - cbn. rewrite !elem_of_cons. tauto.
  - repeat constructor.
  - intros [|[|n]] order files Hn; [lia..|]. split_and!; eexists; vm_compute; reflexivity.
Qed.
Print Assumptions C68_refuted.
Example C68_example : full bx_form /\ full bx_files /\
  (forall p fl f u w, place bx_lib bx_type bx_value p fl f u w -> f_anon f = false).
Proof.
  split_and!.
  - intros k H. unfold bx_form in H.
    apply lookup_insert_Some in H as [[_ H]|[_ H]]; [done|]. apply lookup_insert_Some in H as [[_ H]|[_ H]]; [done|].
    apply lookup_singleton_Some in H as [_ H]. done.
  - intros k H. unfold bx_files in H. apply lookup_singleton_Some in H as [_ H]. done.
  - assert (forall p fl f u w, place bx_lib (TStruct bx_in) (VStruct [VBool false]) p fl f u w -> f_anon f = false) as Hin.
    { intros p fl f u w H. inversion H as [fs vs i f' t v H1 H2|fs vs i f' t v p' fl' g u' w' H1 H2 Ho Hp|fs vs i f' e p' fl' g u' w' H1 H2 Hx Hp|fs vs i f' e v p' fl' g u' w' H1 H2 Ha Hp]; subst;
        destruct i as [|i]; try done; cbn in H1, H2; try (injection H1 as <- <-); [done|injection H2 as <-; inversion Hp]. }
    intros p fl f u w H. inversion H as [fs vs i f' t v H1 H2|fs vs i f' t v p' fl' g u' w' H1 H2 Ho Hp|fs vs i f' e p' fl' g u' w' H1 H2 Hx Hp|fs vs i f' e v p' fl' g u' w' H1 H2 Ha Hp]; subst;
      destruct i as [|[|[|[|[|[|i]]]]]]; try done; cbn in H1, H2; injection H1; intros; subst; try done; try (injection H2; intros; subst); try done.
    all: try (by inversion Hp). by apply Hin in Hp.
Qed.
