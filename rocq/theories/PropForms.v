(** Properties of the calls that use a form. *)
From Verif Require Import Base GoStr Pattern Tree Header Router Ctx CallSpec HttpFacts Util Binding BindingSpec BindingTop Forms FormsSpec FormsFacts
  PropMiddleware.
Local Open Scope Z_scope.

(** ** Examples: an upload with a query, a form with a query, a query *)
Definition ox_media (ct : gostr) : gostr * bool * bool :=
  if seqb (take 19 (map lower_byte ct)) (L "multipart/form-data") then (L "multipart/form-data", true, true)
  else (map lower_byte ct, true, false).
Definition ox_req (m ct : gostr) : request := mx_req m [(L "Content-Type", ct)].
Definition ox_in (m ct : gostr) (ok : bool) : incoming (D:=gostr) :=
  mkIncoming (ox_req m ct) ox_media ({[L "a" := [L "1"]]}, ok) ({[L "a" := [L "2"]; L "b" := [L "3"]]}, true)
    (fun _ => Some ({[L "a" := [L "4"; L "5"]]}, {[L "f" := [L "file"; L "other"]]})).
Definition ox_upload := ox_in (L "PUT") (L "multipart/form-data; boundary=x") true.
Definition ox_post := ox_in (L "POST") (L "application/x-www-form-urlencoded") true.
Definition ox_query := ox_in (L "GET") (L "text/plain") true.

(** ** C98: the order of calls *)
(** In a request without errors, and whose Content-Type water and net/http read
    alike, every call gets the answer that belongs to the request, whatever calls were
    made before it and in whatever order. *)
Theorem C98_partial :
  forall (D : Type) late memory (r : incoming (D:=D)) vals up cs, holds r vals up ->
  exists s l, fdos late r memory cs no_forms = (s, l) /\ Forall2 (replies r vals up) cs l.
Proof.
  intros D late memory r vals up cs Hr. destruct (dos_kept late memory r vals up Hr cs no_forms) as (s & l & E & _ & Hl); [by left|by exists s, l].
Qed.
Print Assumptions C98_partial.
(** what such a request holds, and each answer, are determined by the request *)
Theorem C98_one_answer :
  forall (D : Type) (r : incoming (D:=D)) vals up vals' up' c a a', holds r vals up -> holds r vals' up' ->
  replies r vals up c a -> replies r vals' up' c a' ->
  a = a' \/ exists f f', a = ASource f ∅ /\ a' = ASource f' ∅ /\ forall k, of f k = of f' k.
Proof.
  intros D r vals up vals' up' c a a' H H' Ha Ha'.
  assert (up = up' /\ forall k, vals k = vals' k) as [<- Hv] by (by eapply holds_one).
  eapply replies_one; [exact Hv|exact Ha|exact Ha'].
Qed.
Print Assumptions C98_one_answer.
Lemma ox_multipart m ct x y : m ∈ [L "POST"; L "PUT"; L "PATCH"] -> ct = x ++ L "multipart/form-data" ++ y -> multipart_request (ox_req m ct).
Proof. intros Hm Hct. split; [exact Hm|]. exists x, y. rewrite <- Hct. by vm_compute. Qed.
Example C98_partial_case :
  (exists vals up, holds ox_upload vals (Some up)) /\ (exists vals, holds ox_post vals None) /\ (exists vals, holds ox_query vals None) /\
  (forall late, snd (fdos late ox_upload 0 [CFormFile (L "f"); CQuery (L "a"); CFormFile (L "g"); CFormValue (L "b"); CQuery (L "a")] no_forms) =
    [AFile (FFile (L "file")); AValues [L "1"; L "4"; L "5"]; AFile FMissing; AValue []; AValues [L "1"; L "4"; L "5"]]) /\
  (forall late, snd (fdos late ox_post 0 [CFormValue (L "a"); CQuery (L "a"); CFormFile (L "f"); CBindWith BMultipart; CQuery (L "b")] no_forms) =
    [AValue (L "2"); AValues [L "2"; L "1"]; AFile FError; AError; AValues [L "3"]]).
Proof.
  split_and!.
  - eexists _, (_, _). eapply holds_upload; try reflexivity. apply (ox_multipart _ _ [] (L "; boundary=x")); [rewrite !elem_of_cons; cbn; tauto|done].
  - eexists _. eapply holds_body; try reflexivity; [unfold body_method; rewrite !elem_of_cons; cbn; tauto|vm_compute; by intros|]. intros Hm. apply is_multipart_true in Hm. by vm_compute in Hm.
  - eexists _. eapply holds_query; try reflexivity; [done|by intros Hb; apply post_true in Hb|]. intros Hm. apply is_multipart_true in Hm. by vm_compute in Hm.
  - intros []; vm_compute; reflexivity.
  - intros []; vm_compute; reflexivity.
Qed.

(** Other requests depend on the order.  An upload in a request with a method other
    than POST, PUT and PATCH: its values appear among those of Query once FormFile was
    called. *)
Theorem C98_method_refuted :
  exists r : incoming (D:=gostr), rq_method (in_req r) = L "DELETE" /\ forall late memory,
  snd (fdos late r memory [CQuery (L "a"); CFormFile (L "f"); CQuery (L "a")] no_forms) =
    [AValues [L "1"]; AFile (FFile (L "file")); AValues [L "1"; L "4"; L "5"]].
Proof. exists (ox_in (L "DELETE") (L "multipart/form-data; boundary=x") true). split; [done|]. intros [] ?; vm_compute; reflexivity. Qed.
Print Assumptions C98_method_refuted.
(** The same for a type with capital letters, which net/http takes for an upload
    and water does not. *)
Theorem C98_capitals_refuted :
  exists r : incoming (D:=gostr), rq_method (in_req r) = L "POST" /\ content_type r = L "Multipart/Form-Data; boundary=x" /\
  in_media r (content_type r) = (L "multipart/form-data", true, true) /\ forall late memory,
  snd (fdos late r memory [CQuery (L "a"); CFormFile (L "f"); CQuery (L "a")] no_forms) =
    [AValues [L "1"]; AFile (FFile (L "file")); AValues [L "1"; L "4"; L "5"]].
Proof. exists (ox_in (L "POST") (L "Multipart/Form-Data; boundary=x") true). split_and!; [done|done|done|]. intros [] ?; vm_compute; reflexivity. Qed.
Print Assumptions C98_capitals_refuted.
(** A malformed query makes the first call of Query panic, but neither a second
    one nor one after FormFile or FormValue. *)
Theorem C98_error_refuted :
  exists r : incoming (D:=gostr), snd (in_url r) = false /\ forall late memory,
  snd (fdos late r memory [CQuery (L "a"); CQuery (L "a")] no_forms) = [APanic; AValues (if late then [L "1"; L "4"; L "5"] else [L "1"])] /\
  snd (fdos late r memory [CFormValue (L "a"); CQuery (L "a")] no_forms) = [AValue (L "1"); AValues [L "1"; L "4"; L "5"]] /\
  snd (fdos late r memory [CFormFile (L "f"); CQuery (L "a")] no_forms) = [AFile FError; AValues [L "1"; L "4"; L "5"]].
Proof. exists (ox_in (L "PUT") (L "multipart/form-data; boundary=x") false). split; [done|]. intros [] ?; split_and!; vm_compute; reflexivity. Qed.
Print Assumptions C98_error_refuted.

(** ** C99: the memory for uploads *)
(** Whatever is called, an upload of a request without errors is read at most once,
    with the memory that was configured if the first call that uses the form is one of
    water, and with 32 MB if it is FormFile or FormValue. *)
Theorem C99_partial :
  forall (D : Type) late memory (r : incoming (D:=D)) vals up cs s l, holds r vals up ->
  fdos late r memory cs no_forms = (s, l) ->
  Forall (idle r) cs /\ fm_reads s = [] \/
  exists c1 c c2, cs = c1 ++ c :: c2 /\ Forall (idle r) c1 /\ ~ idle r c /\
    exists m, fm_reads s = (match up with Some _ => [m] | None => [] end) /\
      (direct c -> m = 32 * 1024 * 1024) /\ (~ direct c -> m = memory).
Proof. intros D late memory r vals up cs s l Hr E. pose proof (first_reads late memory r vals up Hr cs) as H. by rewrite E in H. Qed.
Print Assumptions C99_partial.
(** For every request: only the two numbers are ever used, and without FormFile and
    FormValue only the configured one. *)
Theorem C99_water :
  forall (D : Type) late memory (r : incoming (D:=D)) cs s l, fdos late r memory cs no_forms = (s, l) ->
  (forall m, m ∈ fm_reads s -> m = memory \/ m = 32 * 1024 * 1024) /\
  (Forall (fun c => ~ direct c) cs -> forall m, m ∈ fm_reads s -> m = memory).
Proof. intros D late memory r cs s l E. pose proof (all_reads late memory r cs no_forms) as H. rewrite E in H. by apply H. Qed.
Print Assumptions C99_water.
Example C99_partial_case : exists vals up, holds ox_upload vals (Some up) /\
  fm_reads (fst (fdos true ox_upload 7 [CBindWith BJSON; CQuery (L "a"); CFormFile (L "f"); CBind] no_forms)) = [7].
Proof.
  eexists _, (_, _). split; [|vm_compute; reflexivity]. eapply holds_upload; try reflexivity.
  apply (ox_multipart _ _ [] (L "; boundary=x")); [rewrite !elem_of_cons; cbn; tauto|done].
Qed.
(** So the configured memory is exceeded if FormFile comes first. *)
Theorem C99_refuted :
  exists (r : incoming (D:=gostr)) vals up, holds r vals (Some up) /\ forall late memory,
  fm_reads (fst (fdos late r memory [CFormFile (L "f"); CQuery (L "a")] no_forms)) = [32 * 1024 * 1024].
Proof.
  exists ox_upload. eexists _, (_, _). split; [|intros [] ?; vm_compute; reflexivity]. eapply holds_upload; try reflexivity.
  apply (ox_multipart _ _ [] (L "; boundary=x")); [rewrite !elem_of_cons; cbn; tauto|done].
Qed.
Print Assumptions C99_refuted.
