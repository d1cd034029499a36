(** Properties of the getters and of the helpers in util.go. *)
From Verif Require Import Base GoStr GoStrFacts Strconv UtilSpec StrconvFacts Tree Header Router Ctx PathClean Util UtilFacts
  Getters GetterSpec GetterFacts TrimFacts BodySpec.

(** ** C28: integer getters *)
(** the string a getter reads *)
Inductive reads : gostr -> res Z -> Prop :=
  | reads_MustInt p name s : Params_String p name = Ok s -> reads s (MustInt p name)
  | reads_MustInt64 p name s : Params_String p name = Ok s -> reads s (MustInt64 p name)
  | reads_QueryInt f name : reads (Query f name) (Ok (QueryInt f name))
  | reads_QueryInt64 f name : reads (Query f name) (Ok (QueryInt64 f name))
  | reads_DefaultQueryInt f name d : reads (DefaultQuery f name d) (Ok (DefaultQueryInt f name d))
  | reads_DefaultQueryInt64 f name d : reads (DefaultQuery f name d) (Ok (DefaultQueryInt64 f name d))
  | reads_CookieInt cs r name : reads (Cookie cs r name) (Ok (CookieInt cs r name))
  | reads_CookieInt64 cs r name : reads (Cookie cs r name) (Ok (CookieInt64 cs r name)).
Inductive ureads : gostr -> res N -> Prop :=
  | reads_MustUint p name s : Params_String p name = Ok s -> ureads s (MustUint p name)
  | reads_MustUint64 p name s : Params_String p name = Ok s -> ureads s (MustUint64 p name)
  | reads_QueryUint f name : ureads (Query f name) (Ok (QueryUint f name))
  | reads_QueryUint64 f name : ureads (Query f name) (Ok (QueryUint64 f name))
  | reads_DefaultQueryUint f name d : ureads (DefaultQuery f name d) (Ok (DefaultQueryUint f name d))
  | reads_DefaultQueryUint64 f name d : ureads (DefaultQuery f name d) (Ok (DefaultQueryUint64 f name d))
  | reads_CookieUint cs r name : ureads (Cookie cs r name) (Ok (CookieUint cs r name))
  | reads_CookieUint64 cs r name : ureads (Cookie cs r name) (Ok (CookieUint64 cs r name)).
Lemma reads_value s z : reads s z -> z = Ok (fst (parse_int 64 s)).
Proof.
  intros H. inversion H as [p name s' E|p name s' E| | | | | |]; subst;
    unfold MustInt, MustInt64, Params_Int, Params_Int64, QueryInt, DefaultQueryInt, CookieInt; rewrite ?E; cbn [rbind];
    rewrite ?atoi_parse_int; reflexivity.
Qed.
Lemma ureads_value s z : ureads s z -> z = Ok (fst (parse_uint 64 s)).
Proof.
  intros H. inversion H as [p name s' E|p name s' E| | | | | |]; subst;
    unfold MustUint, MustUint64, Params_Uint, Params_Uint64; rewrite ?E; cbn [rbind]; reflexivity.
Qed.
(** A number is returned, or the nearest value of the type. *)
Theorem C28_number :
  forall s r z, reads s r -> decimal s z -> r = Ok (clamp min64 max64 z).
Proof. intros s r z H Hd. rewrite (reads_value s r H), (parse_int_decimal 64 s z) by (done || lia). reflexivity. Qed.
Print Assumptions C28_number.
Theorem C28_unsigned_number :
  forall s r z, ureads s r -> udecimal s z -> r = Ok (Z.to_N (clamp 0 maxu64 z)).
Proof. intros s r z H Hd. rewrite (ureads_value s r H), (parse_uint_decimal 64 s z) by (done || lia). reflexivity. Qed.
Print Assumptions C28_unsigned_number.
(** Writing a number in decimal and reading it back gives the number. *)
Theorem C28_round_trip :
  (forall s r z, reads s r -> s = itoa z -> (min64 <= z <= max64)%Z -> r = Ok z) /\
  (forall s r n, ureads s r -> s = itoa (Z.of_N n) -> (Z.of_N n <= maxu64)%Z -> r = Ok n).
Proof.
  split.
  - intros s r z H -> Hz. rewrite (C28_number _ r z H (itoa_decimal z)). unfold clamp. f_equal. lia.
  - intros s r n H -> Hn. rewrite (C28_unsigned_number _ r (Z.of_N n) H) by (apply itoa_udecimal; lia). unfold clamp. f_equal. lia.
Qed.
Print Assumptions C28_round_trip.
(** What is not a number is not always read as 0: a long number followed by
    something else gives a bound of the type. *)
Theorem C28_not_a_number_refuted :
  exists f name, (forall z, ~ decimal (Query f name) z) /\ QueryInt f name = max64.
Proof.
  exists (Some {[ L "n" := [L "99999999999999999999 apples"] ]}), (L "n").
  assert (Query (Some {[ L "n" := [L "99999999999999999999 apples"] ]}) (L "n") = L "99999999999999999999 apples") as E.
  { destruct (query_some {[ L "n" := [L "99999999999999999999 apples"] ]} (L "n") (L "99999999999999999999 apples") []) as [-> _];
      [apply lookup_singleton|]. vm_compute. reflexivity. }
  unfold QueryInt. rewrite E. split; [|vm_compute; reflexivity].
  intros z Hz. apply decimal_iff in Hz as (_ & Hz & _). rewrite Forall_forall in Hz.
  assert (is_digit " "%char) as H by (apply Hz, (bool_decide_eq_true _); vm_compute; reflexivity).
  revert H. unfold is_digit. vm_compute. intros [H _]. by apply H.
Qed.
Print Assumptions C28_not_a_number_refuted.
(** What holds: it is read as 0 unless it begins with a number of more than 64 bits. *)
Theorem C28_not_a_number_partial :
  (forall s r, reads s r -> (forall z, ~ decimal s z) -> ~ overlong s -> r = Ok 0%Z) /\
  (forall s r, ureads s r -> (forall z, ~ udecimal s z) -> ~ uoverlong s -> r = Ok 0%N).
Proof.
  split; intros s r H H1 H2.
  - rewrite (reads_value s r H), parse_int_not_decimal by done. done.
  - rewrite (ureads_value s r H), parse_uint_not_decimal by done. done.
Qed.
Print Assumptions C28_not_a_number_partial.
(** a parameter with a negative number, one out of range, and one that is no number *)
Example C28_case :
  let p := Some ({[ L "a" := L "-42"; L "b" := L "9223372036854775808"; L "c" := L "12x" ]} : Params) in
  reads (L "-42") (MustInt p (L "a")) /\ decimal (L "-42") (-42) /\ MustInt p (L "a") = Ok (-42)%Z /\
  MustInt64 p (L "b") = Ok max64 /\ MustInt p (L "c") = Ok 0%Z /\ MustUint p (L "b") = Ok (2 ^ 63)%N /\ MustUint p (L "a") = Ok 0%N /\
  (forall z, ~ decimal (L "12x") z) /\ ~ overlong (L "12x").
Proof.
  split; [apply reads_MustInt; vm_compute; reflexivity|].
  split.
  { apply (dec_minus (L "42")); [done|]. repeat constructor; vm_compute; discriminate. }
  repeat (split; [vm_compute; reflexivity|]).
  assert (~ is_digit "x"%char) as Hx by (unfold is_digit; vm_compute; intros [_ H]; by apply H).
  split.
  - intros z Hz. apply decimal_iff in Hz as (_ & Hz & _). rewrite Forall_forall in Hz. apply Hx, Hz.
    apply (bool_decide_eq_true _). vm_compute. reflexivity.
  - intros (p & ds & r & E & Hp & Hd & Hlt).
    assert (length ds <= 3).
    { apply (f_equal length) in E. rewrite !app_length in E. change (length (L "12x")) with 3 in E. lia. }
    pose proof (dec_from_bound 0 ds Hd) as Hb. change (dec_from 0 ds) with (dec_value ds) in Hb.
    assert (10 ^ Z.of_nat (length ds) <= 10 ^ 3)%Z by (apply Z.pow_le_mono_r; lia).
    unfold maxu64 in Hlt. change (2 ^ 64)%Z with 18446744073709551616%Z in Hlt. change (10 ^ 3)%Z with 1000%Z in *. lia.
Qed.

(** ** C29: query accessors *)
(** A name with values: the first one trimmed, or all of them trimmed. *)
Theorem C29_present :
  forall m name v vs, m !! name = Some (v :: vs) ->
  trimmed v (Query (Some m) name) /\
  (forall d, DefaultQuery (Some m) name d = Query (Some m) name) /\
  (exists l, QueryArray (Some m) name = Some l /\ Forall2 trimmed (v :: vs) l /\
    forall d, DefaultQueryArray (Some m) name d = Some l).
Proof.
  intros m name v vs H. destruct (query_some m name v vs H) as (-> & H2 & -> & H4).
  split; [apply trim_space_trimmed|]. split; [done|]. eexists. split; [reflexivity|]. split; [|done].
  generalize (v :: vs). intros l. induction l as [|x l IH]; [constructor|]. constructor; [apply trim_space_trimmed|done].
Qed.
Print Assumptions C29_present.
(** Trimming can go only one way, so these values are determined. *)
Theorem C29_determined : forall s t t', trimmed s t -> trimmed s t' -> t = t'.
Proof. exact trimmed_unique. Qed.
Print Assumptions C29_determined.
(** A name without values: nothing, or the default. *)
Theorem C29_absent :
  forall f name, (f = None \/ exists m, f = Some m /\ m !! name = None) ->
  Query f name = [] /\ QueryArray f name = None /\
  (forall d, DefaultQuery f name d = d) /\ (forall d, DefaultQueryArray f name d = d).
Proof.
  intros f name H. assert (f ≫= (.!! name) = None) as Hn.
  { destruct H as [->|(m & -> & H)]; [done|]. done. }
  destruct (query_none f name Hn) as (H1 & H2 & H3 & H4). done.
Qed.
Print Assumptions C29_absent.
Example C29_case :
  let m := ({[ L "a" := [L " x y "; L "z"] ]} : gmap gostr (list gostr)) in
  Query (Some m) (L "a") = L "x y" /\ QueryArray (Some m) (L "a") = Some [L "x y"; L "z"] /\
  DefaultQuery (Some m) (L "b") (L " d ") = L " d ".
Proof. repeat split; vm_compute; reflexivity. Qed.
(** Names that only begin like key[x] are taken for it. *)
Theorem C29_map_refuted :
  exists m order key x d, visits (Some m) order /\ filled m /\ QueryMap order key = Ok d /\
    d !! x = Some (L "1") /\ m !! (key ++ L "[" ++ x ++ L "]") = None.
Proof.
  exists {[ L "ids[a]b" := [L "1"] ]}, [(L "ids[a]b", [L "1"])], (L "ids"), (L "a"), (<[L "a" := L "1"]> ∅).
  split; [unfold visits; by rewrite map_to_list_singleton|]. split.
  - intros k E. destruct (decide (k = L "ids[a]b")) as [->|Hne]; [rewrite lookup_singleton in E|rewrite lookup_singleton_ne in E]; done.
  - split; [reflexivity|]. split; [apply lookup_insert|]. by apply lookup_singleton_ne.
Qed.
Print Assumptions C29_map_refuted.
(** What holds: the map has an entry exactly for the form names that begin with
    key[x], each the trimmed first value of such a name; and exactly the values
    of key[x] if no name continues after the bracket.  The default is returned
    exactly when there is no such name. *)
Theorem C29_map_partial :
  forall m order key, visits (Some m) order -> filled m ->
  (exists d, QueryMap order key = Ok d /\
    (forall x y, d !! x = Some y -> exists v, entry m key x v /\ trimmed v y) /\
    (forall x v, entry m key x v -> exists y, d !! x = Some y) /\
    (forall d0, (exists x v, entry m key x v) -> DefaultQueryMap order key d0 = Ok d) /\
    (tidy m key -> key <> [] -> "["%char ∉ key -> forall x y, d !! x = Some y <->
       x <> [] /\ "]"%char ∉ x /\ exists v vs, m !! (key ++ L "[" ++ x ++ L "]") = Some (v :: vs) /\ y = trim_space v)) /\
  (forall d0, (forall x v, ~ entry m key x v) -> DefaultQueryMap order key d0 = Ok d0).
Proof.
  intros m order key Hv Hf. destruct (query_map_spec m order key Hv Hf) as (d & Hd & H1 & H2).
  split; [exists d|]; [split; [done|]|].
  - split; [|split; [done|split]].
    + intros x y H. destruct (H1 x y H) as (v & He & ->). exists v. split; [done|]. apply trim_space_trimmed.
    + intros d0 He. destruct (default_query_map_spec m order key d0 Hv Hf) as [-> _]; done.
    + intros Ht Hk1 Hk2. destruct (query_map_tidy m order key Hv Hf Ht Hk1 Hk2) as (d' & Hd' & H). rewrite Hd in Hd'.
      injection Hd' as <-. done.
  - intros d0 He. by apply (default_query_map_spec m order key d0 Hv Hf).
Qed.
Print Assumptions C29_map_partial.
(** a form with two map entries and an unrelated name *)
Example C29_map_case :
  let m := ({[ L "ids[a]" := [L " 1 "]; L "ids[b]" := [L "2"; L "3"]; L "x" := [L "y"] ]} : gmap gostr (list gostr)) in
  visits (Some m) (map_to_list m) /\ filled m /\ entry m (L "ids") (L "a") (L " 1 ") /\ tidy m (L "ids").
Proof.
  assert (forall n vs, ({[ L "ids[a]" := [L " 1 "]; L "ids[b]" := [L "2"; L "3"]; L "x" := [L "y"] ]} : gmap gostr (list gostr)) !! n = Some vs ->
    (n = L "ids[a]" /\ vs = [L " 1 "]) \/ (n = L "ids[b]" /\ vs = [L "2"; L "3"]) \/ (n = L "x" /\ vs = [L "y"])) as Hm.
  { intros n vs E. apply lookup_insert_Some in E as [[<- <-]|[_ E]]; [tauto|].
    apply lookup_insert_Some in E as [[<- <-]|[_ E]]; [tauto|].
    apply lookup_singleton_Some in E as [<- <-]; tauto. }
  cbv zeta. split; [unfold visits; reflexivity|]. split.
  - intros k E. apply Hm in E as [[_ E]|[[_ E]|[_ E]]]; discriminate.
  - split.
    + exists (L "ids[a]"), []. split; [apply lookup_insert|]. apply map_key_spec. vm_compute. reflexivity.
    + intros n x [vs E] Hx. apply map_key_spec in Hx. apply Hm in E as [[-> _]|[[-> _]|[-> _]]]; vm_compute in Hx; [| |discriminate];
        injection Hx as <-; reflexivity.
Qed.
(** A getter parses the form on first use only, and later getters see the same form. *)
Theorem C29_parsed_once :
  forall (A V : Type) sniff parse_form next X Y (g : form -> X) (h : form -> Y) (k : X -> Y -> prog V) (x : ctxobj A V) c f rest,
  x_parsed x = false -> parse_form (is_multipart (cn_req c)) (cn_req c) (unread (cn_body c)) = (f, true, rest) ->
  exists x' c', pexec sniff parse_form next (q_prog g (fun a => q_prog h (k a))) x c =
                pexec sniff parse_form next (k (g (Some f)) (h (Some f))) x' c' /\
    cn_form c' = Some f /\ cn_body c' = mkBody rest (bd_feed (cn_body c)) /\ x_parsed x' = true.
Proof.
  intros A V sniff parse_form next X Y g h k x c f rest Hp Hf. change (unread (cn_body c)) with (bd_all (cn_body c)) in Hf.
  eexists. eexists. split.
  - unfold q_prog. cbn [pexec]. unfold call at 1. cbn [do_op]. rewrite Hp, Hf. cbn. reflexivity.
  - cbn. done.
Qed.
Print Assumptions C29_parsed_once.

(** ** C30: determinism of QueryMap *)
(** Two calls for the same request can return different maps. *)
Theorem C30_query_map_refuted :
  exists m key o1 o2 d1 d2, filled m /\ visits (Some m) o1 /\ visits (Some m) o2 /\
    QueryMap o1 key = Ok d1 /\ QueryMap o2 key = Ok d2 /\ d1 <> d2.
Proof.
  set (m := <[L "f[a]" := [L "1"]]> ({[ L "f[a]z" := [L "2"] ]}) : gmap gostr (list gostr)).
  assert (map_to_list m ≡ₚ [(L "f[a]", [L "1"]); (L "f[a]z", [L "2"])]) as Hl.
  { unfold m. rewrite map_to_list_insert by (by apply lookup_singleton_ne). by rewrite map_to_list_singleton. }
  exists m, (L "f"), [(L "f[a]", [L "1"]); (L "f[a]z", [L "2"])], [(L "f[a]z", [L "2"]); (L "f[a]", [L "1"])].
  exists (<[L "a" := L "2"]> (<[L "a" := L "1"]> ∅)), (<[L "a" := L "1"]> (<[L "a" := L "2"]> ∅)). split.
  { intros k E. unfold m in E. apply lookup_insert_Some in E as [[_ E]|[_ E]]; [done|]. apply lookup_singleton_Some in E as [_ E]; done. }
  split; [by unfold visits|]. split; [unfold visits; rewrite Hl; apply perm_swap|].
  split; [reflexivity|]. split; [reflexivity|].
  intros E. apply (f_equal (.!! L "a")) in E. rewrite !lookup_insert in E. discriminate.
Qed.
Print Assumptions C30_query_map_refuted.
(** What holds: if no form name continues after the bracket, every iteration
    order gives the same map. *)
Theorem C30_query_map_partial :
  forall m key o1 o2, filled m -> visits (Some m) o1 -> visits (Some m) o2 -> tidy m key -> QueryMap o1 key = QueryMap o2 key.
Proof.
  intros m key o1 o2 Hf H1 H2 Ht.
  assert (forall o, visits (Some m) o -> (key = [] \/ "["%char ∈ key) -> QueryMap o key = Ok ∅) as Hempty.
  { intros o Ho Hk. destruct (query_map_spec m o key Ho Hf) as (d & -> & Hd & _). f_equal.
    apply map_empty. intros x. destruct (d !! x) eqn:E; [|done]. apply Hd in E as (v & (n & vs & _ & Hm) & _).
    destruct Hm as (Hm1 & Hm2 & _). by destruct Hk. }
  destruct (decide (key = [] \/ "["%char ∈ key)) as [Hk|Hk].
  { by rewrite !Hempty. }
  destruct (query_map_tidy m o1 key H1 Hf Ht) as (d1 & -> & Hd1); [tauto|tauto|].
  destruct (query_map_tidy m o2 key H2 Hf Ht) as (d2 & -> & Hd2); [tauto|tauto|].
  f_equal. apply map_eq. intros x. apply option_eq. intros y. rewrite Hd1, Hd2. done.
Qed.
Print Assumptions C30_query_map_partial.

(** Exactly when all orders give the same map: no two names that begin with the same
    key[x] have different (trimmed) first values. *)
Theorem C30_exact_partial :
  forall m key, filled m ->
  (forall o1 o2, visits (Some m) o1 -> visits (Some m) o2 -> QueryMap o1 key = QueryMap o2 key) <->
  (forall x v v' t t', entry m key x v -> entry m key x v' -> trimmed v t -> trimmed v' t' -> t = t').
Proof.
  intros m key Hf. rewrite (query_map_same m key Hf). split.
  - intros H x v v' t t' He He' Ht Ht'.
    rewrite (trimmed_unique v t _ Ht (trim_space_trimmed v)), (trimmed_unique v' t' _ Ht' (trim_space_trimmed v')). by apply (H x).
  - intros H x v v' He He'. apply (H x v v' _ _ He He'); apply trim_space_trimmed.
Qed.
Print Assumptions C30_exact_partial.
(** And then any of these values can be the one returned. *)
Theorem C30_any_order_partial :
  forall m key x v y, filled m -> entry m key x v -> trimmed v y ->
  exists order d, visits (Some m) order /\ QueryMap order key = Ok d /\ d !! x = Some y.
Proof.
  intros m key x v y Hf (n & vs & Hn & Hm) Ht. rewrite (trimmed_unique v y _ Ht (trim_space_trimmed v)). by eapply query_map_last.
Qed.
Print Assumptions C30_any_order_partial.
Example C30_case :
  let m := (<[L "f[a]" := [L "1"]]> ({[ L "f[a]z" := [L " 1"; L "5"] ]}) : gmap gostr (list gostr)) in
  filled m /\ entry m (L "f") (L "a") (L "1") /\ entry m (L "f") (L "a") (L " 1") /\ trimmed (L " 1") (L "1").
Proof.
  cbv zeta. split; [|split; [|split]].
  - intros k E. apply lookup_insert_Some in E as [[_ E]|[_ E]]; [done|]. apply lookup_singleton_Some in E as [_ E]; done.
  - exists (L "f[a]"), []. split; [apply lookup_insert|]. apply map_key_spec. vm_compute. reflexivity.
  - exists (L "f[a]z"), [L "5"]. split; [|apply map_key_spec; vm_compute; reflexivity].
    rewrite lookup_insert_ne by discriminate. apply lookup_singleton.
  - replace (L "1") with (trim_space (L " 1")) by (vm_compute; reflexivity). apply trim_space_trimmed.
Qed.

(** ** C36: ETags *)
Theorem C36_etag : forall t n t' n', GenerateETag t n = GenerateETag t' n' -> t = t' /\ n = n'.
Proof. exact etag_inj. Qed.
Print Assumptions C36_etag.
Theorem C36_etag2 : forall t n s t' n' s', GenerateETag2 t n s = GenerateETag2 t' n' s' -> t = t' /\ n = n' /\ s = s'.
Proof. exact etag2_inj. Qed.
Print Assumptions C36_etag2.
(** The parts are the time, the size and the name, in hexadecimal. *)
Theorem C36_reads :
  forall t n, (0 <= t)%Z -> (0 <= n)%Z ->
  exists a b, split_byte "-" (GenerateETag t n) = [a; b] /\ hex_number a = Some (Z.to_N t) /\ hex_number b = Some (Z.to_N n).
Proof. exact etag_reads. Qed.
Print Assumptions C36_reads.
Theorem C36_reads2 :
  forall t n s, (0 <= t)%Z -> (0 <= n)%Z ->
  exists a b c, split_byte "-" (GenerateETag2 t n s) = [a; b; c] /\ hex_number a = Some (Z.to_N t) /\ hex_number b = Some (Z.to_N n) /\ hex_text c = Some s.
Proof. exact etag2_reads. Qed.
Print Assumptions C36_reads2.
Example C36_case :
  hex_number (L "5f5e1000") = Some 1600000000%N /\ hex_text (L "612d62") = Some (L "a-b") /\
  GenerateETag 1600000000 255 = L "5f5e1000-ff" /\ GenerateETag (-1) 0 = L "-1-0" /\ GenerateETag2 16 1 (L "a-b") = L "10-1-612d62".
Proof. repeat split; vm_compute; reflexivity. Qed.

(** ** C37: Content-Disposition *)
(** The value has exactly three parts separated by semicolons; the file name is in
    the last two, percent-encoded, and can be read back. *)
Theorem C37_disposition :
  forall name t, t <> [] -> ";"%char ∉ t -> name <> [] ->
  exists e, split_byte ";" (contentDisposition name t) =
              [t; L " filename=""" ++ e ++ L """"; L " filename*=UTF-8''" ++ e] /\
    Forall (fun c => ~ delicate c) e /\ pct_decode e = Some name.
Proof. exact disposition_parts. Qed.
Print Assumptions C37_disposition.
(** Names that need no encoding stay as they are. *)
Theorem C37_plain_name :
  forall name t, t <> [] -> name <> [] -> Forall (fun a => a ∈ plain_chars) name ->
  contentDisposition name t = t ++ L "; filename=""" ++ name ++ L """; filename*=UTF-8''" ++ name.
Proof. exact disposition_plain. Qed.
Print Assumptions C37_plain_name.
Example C37_plain_case : Forall (fun a => a ∈ plain_chars) (L "report_2020-01.tar.gz").
Proof. apply Forall_forall. intros a Ha. eapply bool_decide_unpack. revert a Ha. rewrite <- Forall_forall. repeat constructor. Qed.
(** Every byte of it is one of the type, one of the fixed text, or harmless. *)
Theorem C37_bytes :
  forall name t c, c ∈ contentDisposition name t ->
  c ∈ t \/ c ∈ L "attachment; filename=""""; filename*=UTF-8''" \/ ~ delicate c.
Proof. exact disposition_bytes. Qed.
Print Assumptions C37_bytes.
(** Different names give different values. *)
Theorem C37_injective :
  forall name name' t, t <> [] -> ";"%char ∉ t -> contentDisposition name t = contentDisposition name' t -> name = name'.
Proof.
  intros name name' t Ht Hs E.
  assert (forall n, n <> [] -> contentDisposition n t <> contentDisposition [] t) as Hne.
  { intros n Hn En. destruct (disposition_parts n t Ht Hs Hn) as (e & H & _). rewrite En in H.
    unfold contentDisposition in H. rewrite seqb_refl in H. apply seqb_false in Ht. rewrite Ht in H.
    rewrite split_no_sep in H by done. discriminate. }
  destruct (decide (name = [])) as [->|Hn]; destruct (decide (name' = [])) as [->|Hn']; [done| | |].
  - exfalso. by apply (Hne name').
  - exfalso. by apply (Hne name).
  - destruct (disposition_parts name t Ht Hs Hn) as (e & H1 & _ & H2).
    destruct (disposition_parts name' t Ht Hs Hn') as (e' & H1' & _ & H2'). rewrite E, H1' in H1. injection H1 as _ H1.
    subst e'. congruence.
Qed.
Print Assumptions C37_injective.
Example C37_case :
  contentDisposition (L "a""; b=""/x") (L "inline") =
    L "inline; filename=""a%22%3B%20b=%22%2Fx""; filename*=UTF-8''a%22%3B%20b=%22%2Fx".
Proof. vm_compute. reflexivity. Qed.

(** ** C38: client address *)
(** Entries separated by a comma alone are not told apart. *)
Theorem C38_proxy_refuted :
  exists h, h_get h (L "X-Forwarded-For") = L "1.1.1.1,2.2.2.2" /\ requestProxy h = [L "1.1.1.1,2.2.2.2"] /\
    requestRealIp h (L "9.9.9.9:80") = L "1.1.1.1,2.2.2.2".
Proof.
  exists (h_set ∅ (L "X-Forwarded-For") (L "1.1.1.1,2.2.2.2")). repeat split; vm_compute; reflexivity.
Qed.
Print Assumptions C38_proxy_refuted.
(** What holds, for entries separated by a comma and a space: *)
Theorem C38_proxy_partial :
  (forall h l, h_get h (L "X-Forwarded-For") = join (L ", ") l -> join (L ", ") l <> [] ->
     Forall (fun x => ","%char ∉ x) l -> requestProxy h = l) /\
  (forall h, join (L ", ") (requestProxy h) = h_get h (L "X-Forwarded-For")).
Proof. split; [exact proxy_list|exact proxy_join]. Qed.
Print Assumptions C38_proxy_partial.
(** The address is X-Real-IP, else the first forwarded entry unless it is empty,
    else the remote address without what follows its last colon. *)
Theorem C38_real_ip_partial :
  forall h remote,
  (h_get h (L "X-Real-IP") <> [] -> requestRealIp h remote = h_get h (L "X-Real-IP")) /\
  (h_get h (L "X-Real-IP") = [] ->
     (forall x l, requestProxy h = x :: l -> x <> [] -> requestRealIp h remote = x) /\
     (forall host, (requestProxy h = [] \/ exists l, requestProxy h = [] :: l) -> no_port remote host -> requestRealIp h remote = host)).
Proof.
  intros h remote. split; [apply realip_header|]. intros H0. split.
  - intros x l Hx Hne. by apply (realip_proxy h remote x l).
  - intros host Hp Hh. by apply realip_remote.
Qed.
Print Assumptions C38_real_ip_partial.
Example C38_case :
  let h := h_set ∅ (L "X-Forwarded-For") (L "1.1.1.1, 2.2.2.2") in
  requestProxy h = [L "1.1.1.1"; L "2.2.2.2"] /\ requestRealIp h (L "[::1]:80") = L "1.1.1.1" /\
  requestRealIp ∅ (L "[::1]:80") = L "[::1]" /\ no_port (L "[::1]:80") (L "[::1]") /\ no_port (L "unix") (L "unix") /\
  requestRealIp (h_set h (L "x-real-ip") (L "3.3.3.3")) (L "[::1]:80") = L "3.3.3.3".
Proof.
  split; [vm_compute; reflexivity|]. split; [vm_compute; reflexivity|]. split; [vm_compute; reflexivity|].
  split; [right; exists (L "80"); split; [reflexivity|apply (bool_decide_eq_false _); vm_compute; reflexivity]|].
  split; [left; split; [apply (bool_decide_eq_false _); vm_compute; reflexivity|reflexivity]|]. vm_compute. reflexivity.
Qed.

(** ** C46: SetCookie *)
(** An argument of another type than bool makes the cookie Secure. *)
Theorem C46_unexpected_type_refuted :
  exists others, others !! 3%nat = Some (DStr (L "false")) /\ ck_secure (SetCookie (L "a") (L "b") others) = true.
Proof. exists [DNil; DNil; DNil; DStr (L "false")]. done. Qed.
Print Assumptions C46_unexpected_type_refuted.
(** which argument an attribute depends on, and the arguments it understands *)
Definition without (i : nat) (o : dyn) (ck : cookie) : cookie :=
  match i with
  | 0 => mkCookie (ck_name ck) (ck_value ck) 0 (ck_path ck) (ck_domain ck) (ck_secure ck) (ck_httponly ck) (ck_samesite ck)
  | 1 => mkCookie (ck_name ck) (ck_value ck) (ck_maxage ck) (L "/") (ck_domain ck) (ck_secure ck) (ck_httponly ck) (ck_samesite ck)
  | 2 => mkCookie (ck_name ck) (ck_value ck) (ck_maxage ck) (ck_path ck) [] (ck_secure ck) (ck_httponly ck) (ck_samesite ck)
  | 3 => mkCookie (ck_name ck) (ck_value ck) (ck_maxage ck) (ck_path ck) (ck_domain ck) false (ck_httponly ck) (ck_samesite ck)
  | 4 => mkCookie (ck_name ck) (ck_value ck) (ck_maxage ck) (ck_path ck) (ck_domain ck) (ck_secure ck) false (ck_samesite ck)
  | 5 => mkCookie (ck_name ck) (ck_value ck) (ck_maxage ck) (ck_path ck) (ck_domain ck) (ck_secure ck) (ck_httponly ck) 0
  | _ => ck
  end.
Definition expected (i : nat) (o : dyn) : Prop :=
  match i, o with
  | 0, (DInt _ | DInt32 _ | DInt64 _) => True
  | 1, DStr s => s <> []
  | 2, DStr s => s <> []
  | 3, DNil => False
  | 3, _ => True
  | 4, DBool _ => True
  | 5, DSameSite _ => True
  | _, _ => False
  end.
(** Changing one argument changes at most the attribute at its position; an
    argument that the position does not understand leaves the default. *)
Theorem C46_positions_partial :
  forall name value others i o,
  (i < length others)%nat ->
  without i o (SetCookie name value (<[i := o]> others)) = without i o (SetCookie name value others) /\
  (~ expected i o -> SetCookie name value (<[i := o]> others) = without i o (SetCookie name value others)).
Proof.
  intros name value others i o Hi.
  assert (forall j, j <> i -> <[i := o]> others !! j = others !! j) as Hne by (intros j Hj; by apply list_lookup_insert_ne).
  assert (<[i := o]> others !! i = Some o) as He by (by apply list_lookup_insert).
  unfold SetCookie.
  destruct i as [|[|[|[|[|[|i]]]]]]; cbn [without ck_name ck_value ck_maxage ck_path ck_domain ck_secure ck_httponly ck_samesite];
    rewrite ?(Hne 0), ?(Hne 1), ?(Hne 2), ?(Hne 3), ?(Hne 4), ?(Hne 5) by lia; (split; [reflexivity|]); rewrite ?He; intros Hx;
    try reflexivity; f_equal; destruct o as [| | | |[|c s]|[]| |]; cbn in Hx |- *; try reflexivity; try (exfalso; tauto); exfalso; by apply Hx.
Qed.
Print Assumptions C46_positions_partial.
(** Without arguments all attributes have their defaults; a trailing nil is the
    same as no argument. *)
Theorem C46_defaults :
  forall name value others,
  SetCookie name value [] = mkCookie name value 0 (L "/") [] false false 0 /\
  SetCookie name value (others ++ [DNil]) = SetCookie name value others.
Proof.
  intros name value others. split; [reflexivity|]. unfold SetCookie.
  assert (forall j, (others ++ [DNil]) !! j = others !! j \/ ((others ++ [DNil]) !! j = Some DNil /\ others !! j = None)) as H.
  { intros j. destruct (decide (j < length others)) as [Hj|Hj]; [left; by apply lookup_app_l|].
    destruct (decide (j = length others)) as [->|Hj2].
    - right. split; [|apply lookup_ge_None_2; lia]. rewrite lookup_app_r by lia. by rewrite Nat.sub_diag.
    - left. rewrite !(proj2 (lookup_ge_None _ _)); [done|lia|rewrite app_length; cbn; lia]. }
  f_equal; match goal with |- context [(others ++ [DNil]) !! ?j] => destruct (H j) as [->|[-> ->]]; reflexivity end.
Qed.
Print Assumptions C46_defaults.
(** Each attribute takes the value given for it. *)
Theorem C46_values :
  forall name value age path domain secure httponly samesite,
  path <> [] -> domain <> [] ->
  SetCookie name value [DInt age; DStr path; DStr domain; DBool secure; DBool httponly; DSameSite samesite] =
    mkCookie name value age path domain secure httponly samesite.
Proof.
  intros name value age path domain secure httponly samesite Hp Hd. unfold SetCookie. cbn.
  destruct path; [done|]. destruct domain; [done|]. destruct httponly; reflexivity.
Qed.
Print Assumptions C46_values.

(** ** C47: CookieEscape *)
Theorem C47_inert :
  forall cs r name,
  (forall c, c ∈ ["<"; ">"; """"; "'"]%char -> c ∉ CookieEscape cs r name) /\
  forall p q, CookieEscape cs r name = p ++ "&"%char :: q -> exists e c t, (e, c) ∈ entities /\ "&"%char :: q = e ++ t.
Proof. intros cs r name. eapply reads_inert. apply html_reads. Qed.
Print Assumptions C47_inert.
(** Read as HTML it denotes the cookie value (zero bytes excepted). *)
Theorem C47_denotes :
  forall cs r name, "000"%char ∉ Cookie cs r name -> reads_as (CookieEscape cs r name) (Cookie cs r name).
Proof.
  intros cs r name H. rewrite <- (nul_replaced_id (Cookie cs r name)) by done. apply html_reads.
Qed.
Print Assumptions C47_denotes.
Example C47_case :
  CookieEscape (fun _ _ => Some (L "<a href='x'>&amp;")) (mkReq [] 1 1 [] [] ∅ [] false) (L "c") =
    L "&lt;a href=&#39;x&#39;&gt;&amp;amp;".
Proof. vm_compute. reflexivity. Qed.

(** ** C52: path cleaning *)
(** The result is rooted and consists of proper segments only; it leads to the
    same place as the path. *)
Theorem C52_clean :
  forall p, exists l, cleanPath p = "/"%char :: join (L "/") l /\ Forall proper l /\ l = walk [] (split_byte "/" p).
Proof. exact cleanPath_segs. Qed.
Print Assumptions C52_clean.
Theorem C52_idempotent : forall p, cleanPath (cleanPath p) = cleanPath p.
Proof. exact cleanPath_idem. Qed.
Print Assumptions C52_idempotent.
Theorem C52_unchanged : forall l, Forall proper l -> cleanPath ("/"%char :: join (L "/") l) = "/"%char :: join (L "/") l.
Proof. exact cleanPath_fix. Qed.
Print Assumptions C52_unchanged.
Example C52_case : cleanPath (L "a//./b/../../../c/") = L "/c" /\ cleanPath (L "/../..") = L "/".
Proof. split; vm_compute; reflexivity. Qed.

(** ** C87: floating-point getters *)
(** [parse s] is what strconv.ParseFloat gives for s; [text]: the text that a getter
    is about.  Form values lose the white space around them, the others and
    defaults do not. *)
Inductive float_text : gostr -> forall F, (gostr -> F * bool) -> res F -> Prop :=
  | float_param F (parse : gostr -> F * bool) p name s : p ≫= (.!! name) = Some s -> float_text s F parse (MustFloat64 parse p name)
  | float_query F (parse : gostr -> F * bool) m name v vs s : m !! name = Some (v :: vs) -> trimmed v s ->
      float_text s F parse (Ok (QueryFloat64 parse (Some m) name))
  | float_query_absent F (parse : gostr -> F * bool) f name : (f = None \/ exists m, f = Some m /\ m !! name = None) ->
      float_text [] F parse (Ok (QueryFloat64 parse f name))
  | float_default F (parse : gostr -> F * bool) m name v vs s d : m !! name = Some (v :: vs) -> trimmed v s ->
      float_text s F parse (Ok (DefaultQueryFloat64 parse (Some m) name d))
  | float_default_absent F (parse : gostr -> F * bool) f name d : (f = None \/ exists m, f = Some m /\ m !! name = None) ->
      float_text d F parse (Ok (DefaultQueryFloat64 parse f name d))
  | float_cookie F (parse : gostr -> F * bool) cs r name s : cs r name = Some s -> float_text s F parse (Ok (CookieFloat64 parse cs r name))
  | float_cookie_absent F (parse : gostr -> F * bool) cs r name : cs r name = None -> float_text [] F parse (Ok (CookieFloat64 parse cs r name)).
(** All of them give the number that ParseFloat gives, also when it reports an error
    (then 0 or an infinity). *)
Theorem C87_number :
  forall F (parse : gostr -> F * bool) s r, float_text s F parse r -> r = Ok (fst (parse s)).
Proof.
  intros F parse s r H. destruct H as [F parse p name s H|F parse m name v vs s H Ht|F parse f name H|F parse m name v vs s d H Ht|F parse f name d H
    |F parse cs r name s H|F parse cs r name H].
  - unfold MustFloat64, Params_Float64, Params_String. rewrite H. reflexivity.
  - unfold QueryFloat64. destruct (C29_present m name v vs H) as (Ht' & _). by rewrite (trimmed_unique v s _ Ht Ht').
  - unfold QueryFloat64. by rewrite (proj1 (C29_absent f name H)).
  - unfold DefaultQueryFloat64. destruct (C29_present m name v vs H) as (Ht' & -> & _). by rewrite (trimmed_unique v s _ Ht Ht').
  - unfold DefaultQueryFloat64. destruct (C29_absent f name H) as (_ & _ & Hd & _). by rewrite Hd.
  - unfold CookieFloat64, Cookie. by rewrite H.
  - unfold CookieFloat64, Cookie. by rewrite H.
Qed.
Print Assumptions C87_number.
(** Float64 also gives the error; a missing parameter panics. *)
Theorem C87_error :
  forall F (parse : gostr -> F * bool) p name,
  (forall s, p ≫= (.!! name) = Some s -> Params_Float64 parse p name = Ok (parse s)) /\
  (p ≫= (.!! name) = None -> (exists m, Params_Float64 parse p name = Panic m) /\ exists m, MustFloat64 parse p name = Panic m).
Proof.
  intros F parse p name. unfold MustFloat64, Params_Float64, Params_String. split; [by intros s ->|].
  intros ->. split; eexists; reflexivity.
Qed.
Print Assumptions C87_error.
(** a parser that reads lengths: a form value with white space around it, a
    parameter with it, a default and a missing cookie *)
Example C87_case :
  let parse := fun s : gostr => (length s, negb (seqb s [])) in
  let m := ({[ L "x" := [L " 1.5 "; L "2"] ]} : gmap gostr (list gostr)) in
  trimmed (L " 1.5 ") (L "1.5") /\ QueryFloat64 parse (Some m) (L "x") = 3%nat /\
  MustFloat64 parse (Some {[ L "x" := L " 1.5" ]}) (L "x") = Ok 4%nat /\
  DefaultQueryFloat64 parse (Some m) (L "y") (L "22") = 2%nat /\
  CookieFloat64 parse (fun _ _ => None) (mkReq [] 1 1 [] [] ∅ [] false) (L "c") = 0%nat.
Proof.
  split_and!; try (vm_compute; reflexivity).
  exact (trim_space_trimmed (L " 1.5 ")).
Qed.
