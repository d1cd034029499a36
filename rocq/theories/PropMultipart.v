(** Properties of multipart forms, over a model of the readers of the standard library. *)
From Coq Require Import ZArith NArith.
From Verif Require Import Base GoStr GoStrFacts Strconv Pattern Tree Header Router Ctx CallSpec HttpFacts Getters GetterSpec GetterFacts BodySpec
  RequestSpec RequestFacts Util Binding NetQuery QuerySpec QueryFacts QueryServe PropQuery Forms NetMultipart MultipartSpec MultipartFacts MultipartServe MultipartCut Upload UploadFacts PropUpload.
Local Open Scope Z_scope.

(** ** C111: uploads and multipart fields arrive as they were sent *)
(** A form with fields of at most 10 MB, of any number and size of files, whatever the
    memory: every field arrives under its name with its values in their order, and every
    file with its name, content and headers. *)
Theorem C111_form :
  forall quoted_printable max b is ct body, 0 <= max ->
  boundary b -> type_text b ct -> body_text b is body -> fields_length is <= 10 * 1024 * 1024 ->
  exists vs fs, net_multi quoted_printable max ct body = Some (vs, fs) /\ form_arrived is vs fs.
Proof. intros qp max b is ct body Hm Hb Ht Hbody Hl. by apply (net_multi_form b). Qed.
Print Assumptions C111_form.
(** Every form can be sent so: names without line ends, and a boundary that the
    contents do not contain. *)
Theorem C111_every_form :
  forall b is, Forall (fun i => Forall (fun a => a ∉ ["013"; "010"]%char) (it_name i) /\
    Forall (fun a => a ∉ ["013"; "010"]%char) (default [] (it_file i)) /\ Forall other_header (it_headers i)) is ->
  Forall (fun i => forall x y, it_data i <> x ++ b ++ y) is -> exists body, body_text b is body.
Proof. exact body_total. Qed.
Print Assumptions C111_every_form.
(** A body is that of no other form. *)
Theorem C111_determined :
  forall b is is' body, boundary b -> body_text b is body -> body_text b is' body ->
  fields_length is <= 10 * 1024 * 1024 -> fields_length is' <= 10 * 1024 * 1024 -> forall name, name <> [] ->
  field_values name is = field_values name is' /\
  map it_data (sent_files name is) = map it_data (sent_files name is') /\ map it_file (sent_files name is) = map it_file (sent_files name is').
Proof.
  intros b is is' body Hb H H' Hl Hl' name Hn.
  destruct (read_form b is body Some 0 Hb H (Z.le_refl 0) Hl) as (vs & fs & E & Hv & Hf & _).
  destruct (read_form b is' body Some 0 Hb H' (Z.le_refl 0) Hl') as (vs' & fs' & E' & Hv' & Hf' & _).
  rewrite E in E'. injection E' as <- <-. split.
  - specialize (Hv name Hn). rewrite (Hv' name Hn) in Hv. destruct (field_values name is), (field_values name is'); congruence.
  - destruct (Hf name Hn) as [Ha _], (Hf' name Hn) as [Ha' _]. apply arrived_data in Ha as [-> ->], Ha' as [-> ->]. done.
Qed.
Print Assumptions C111_determined.
(** More than 10 MB of fields above the memory are an error. *)
Theorem C111_too_much :
  forall quoted_printable max b is ct body, 0 <= max ->
  boundary b -> type_text b ct -> body_text b is body -> max + 10 * 1024 * 1024 < fields_length is ->
  net_multi quoted_printable max ct body = None.
Proof. intros qp max b is ct body Hm Hb Ht Hbody Hl. by apply (net_multi_much b is). Qed.
Print Assumptions C111_too_much.
(** A body that is cut off before its end is an error: no part of a form is taken for
    the form. *)
Theorem C111_cut_off :
  forall quoted_printable max b is ct u v, boundary b -> type_text b ct ->
  body_text b is (u ++ v) -> (forall is', ~ body_text b is' u) -> net_multi quoted_printable max ct u = None.
Proof. intros qp max b is ct u v. apply net_multi_cut. Qed.
Print Assumptions C111_cut_off.
(** So is a body with a line that begins like a boundary line, but is none. *)
Theorem C111_spoilt :
  forall quoted_printable max b ct body, boundary b -> type_text b ct -> spoilt_text b body -> net_multi quoted_printable max ct body = None.
Proof. intros qp max b ct body. apply net_multi_spoilt. Qed.
Print Assumptions C111_spoilt.
(** So is a body with a content type that does not say multipart/form-data. *)
Theorem C111_other_type :
  forall quoted_printable max ct body,
  (forall x y z, ct = x ++ y ++ z -> map lower_byte y <> L "multipart/form-data") -> net_multi quoted_printable max ct body = None.
Proof. exact net_multi_other. Qed.
Print Assumptions C111_other_type.
(** In a request with a body that is an error, all calls of a handler find nothing of the
    body, and the first that asks water for the form panics. *)
Theorem C111_broken :
  forall quoted_printable max late memory r b body q ps cs,
  rq_method r ∈ [L "POST"; L "PUT"; L "PATCH"] -> boundary b -> type_text b (h_get (rq_header r) (L "Content-Type")) ->
  net_multi quoted_printable max (h_get (rq_header r) (L "Content-Type")) body = None -> asks r q -> query_text q ps true ->
  exists s l, fdos late (net_incoming quoted_printable max r body) memory cs no_forms = (s, l) /\ query_only ps false cs l.
Proof. intros qp max late memory r b body q ps cs Hm Hb Ht Hn Hq Hps. by eapply calls_broken. Qed.
Print Assumptions C111_broken.
(** In a request with such a form all calls of a handler, in any order and number,
    find that form and the query: Query and the other accessors, FormFile, FormValue,
    Bind and BindWith. *)
Theorem C111_calls :
  forall quoted_printable max late memory r b is body q ps cs, 0 <= max ->
  rq_method r ∈ [L "POST"; L "PUT"; L "PATCH"] -> boundary b -> type_text b (h_get (rq_header r) (L "Content-Type")) ->
  body_text b is body -> fields_length is <= 10 * 1024 * 1024 -> asks r q -> query_text q ps true ->
  exists s l, fdos late (net_incoming quoted_printable max r body) memory cs no_forms = (s, l) /\ Forall2 (finds ps is) cs l.
Proof. intros qp max late memory r b is body q ps cs. apply calls_find. Qed.
Print Assumptions C111_calls.
(** The getters of query.go work on the pairs of the query and then the fields. *)
Theorem C111_query :
  forall (A V : Type) sniff quoted_printable max media read_form next X (g : form -> X) (k : X -> prog V) (x : ctxobj A V) c b is body q ps,
  (forall ct, media ct = (let '(t, _, ok) := ParseMediaType ct in (t, ok))) ->
  (forall ct, fst (read_form ct (body, true)) = match net_multi quoted_printable max ct body with Some (vs, _) => Some vs | None => None end) ->
  x_parsed x = false -> 0 <= max -> rq_method (cn_req c) ∈ [L "POST"; L "PUT"; L "PATCH"] ->
  boundary b -> type_text b (h_get (rq_header (cn_req c)) (L "Content-Type")) -> unread (cn_body c) = (body, true) ->
  body_text b is body -> fields_length is <= 10 * 1024 * 1024 -> asks (cn_req c) q -> query_text q ps true ->
  exists f x' c', holds f (ps ++ field_pairs is) /\ cn_rw c' = cn_rw c /\
    pexec sniff (net_form media read_form) next (q_prog g k) x c = pexec sniff (net_form media read_form) next (k (g (Some f))) x' c'.
Proof.
  intros A V sniff qp max media read_form next X g k x c b is body q ps Hmedia Hread Hp Hmax Hm Hb Ht Hun Hbody Hl Hq Hps.
  destruct (net_multi_form b is _ body qp max Hb Ht Hbody Hmax Hl) as (vs & fs & E & Ha).
  destruct (type_boundary b _ Hb Ht) as (pm & Epm & _).
  assert (content_type (cn_req c) = h_get (rq_header (cn_req c)) (L "Content-Type")) as Ect.
  { unfold content_type. destruct (h_get (rq_header (cn_req c)) (L "Content-Type")); [by inversion Ht|done]. }
  assert (media (content_type (cn_req c)) = (L "multipart/form-data", true)) as Em by (by rewrite Hmedia, Ect, Epm).
  destruct (read_form (h_get (rq_header (cn_req c)) (L "Content-Type")) (body, true)) as [o rest] eqn:Er.
  pose proof (Hread (h_get (rq_header (cn_req c)) (L "Content-Type"))) as Ho. rewrite Er, E in Ho. cbn [fst] in Ho. subst o.
  eapply C105_multipart_last.
  - exact Hp.
  - by apply (type_request _ b).
  - exact Em.
  - vm_compute. discriminate.
  - eapply sent_other; [exact Hm|exact Em|vm_compute; discriminate|exact Hq|exact Hps].
  - rewrite Hun. exact Er.
  - by eapply arrived_holds.
Qed.
Print Assumptions C111_query.
(** A file that is found and saved without an error holds what was sent. *)
Theorem C111_saved :
  forall quoted_printable max late memory r b is body q ps cs n k i l u may_open takes (fs fs' : fsys) rd dst, 0 <= max ->
  rq_method r ∈ [L "POST"; L "PUT"; L "PATCH"] -> boundary b -> type_text b (h_get (rq_header r) (L "Content-Type")) ->
  body_text b is body -> fields_length is <= 10 * 1024 * 1024 -> asks r q -> query_text q ps true ->
  cs !! n = Some (CFormFile k) -> k <> [] -> sent_files k is = i :: l ->
  snd (fdos late (net_incoming quoted_printable max r body) memory cs no_forms) !! n = Some (AFile (FFile u)) ->
  concat (rd_chunks rd) = up_content u -> SaveUploadedFile may_open takes fs (Some rd) dst = (fs', None) ->
  it_file i = Some (up_name u) /\ exists perm, fs' !! dst = Some (mkFile (it_data i) perm).
Proof.
  intros qp max late memory r b is body q ps cs n k i l u may_open takes fs fs' rd dst Hmax Hm Hb Ht Hbody Hl Hq Hps Hc Hk Hi Hu Hrd Hs.
  destruct (calls_find qp max late memory r b is body q ps cs Hmax Hm Hb Ht Hbody Hl Hq Hps) as (s & ans & E & Hans). rewrite E in Hu. cbn [snd] in Hu.
  pose proof (Forall2_lookup_lr _ _ _ _ _ _ Hans Hc Hu) as Hf. inversion Hf as [| |k' i' l' u' _ Hi' Ha| | | |]; subst.
  - rewrite Hi in Hi'. injection Hi' as <- <-. destruct Ha as (H1 & H2 & _). split; [exact H1|].
    apply C88_saved in Hs as (rd' & [= <-] & _ & _ & perm & Hp & _). exists perm. by rewrite Hp, Hrd, H2.
Qed.
Print Assumptions C111_saved.

(** a field whose value looks much like a boundary, and a file with quotation marks in
    its name, behind a query *)
Definition ey_b : gostr := L "xY".
Definition ey_field : item := mkItem (L "t") None [] (L "a" ++ line_end ++ L "--x" ++ line_end ++ L "--Y").
Definition ey_file : item := mkItem (L "f") (Some (L "q""u\.txt")) [(L "content-type", L "text/plain")] (L "--x" ++ line_end).
Definition ey_ct : gostr := L "multipart/form-data; boundary=xY".
Definition ey_body : gostr :=
  L "--" ++ ey_b ++ line_end ++ (L "Content-Disposition: form-data; name=""t""" ++ line_end ++ line_end ++ it_data ey_field) ++ line_end ++
  L "--" ++ ey_b ++ line_end ++ (L "Content-Disposition: form-data; name=""f""; filename=""q\""u\\.txt""" ++ line_end ++
    L "content-type: text/plain" ++ line_end ++ line_end ++ it_data ey_file) ++ line_end ++
  L "--" ++ ey_b ++ L "--" ++ line_end.
Definition ey_req : request := mkReq (L "POST") 1 1 (L "/?t=1") (L "/") {[ L "Content-Type" := [ey_ct] ]} [] false.
Lemma ey_boundary : boundary ey_b.
Proof. split; [done|]. split; [vm_compute; lia|]. repeat constructor; apply (bool_decide_eq_true _); vm_compute; reflexivity. Qed.
Lemma ey_type : type_text ey_b ey_ct.
Proof. apply (tt_plain ey_b). repeat constructor; apply (bool_decide_eq_true _); vm_compute; reflexivity. Qed.
Ltac ey_quoted := repeat first [apply qd_nil | apply qd_plain; [apply (bool_decide_eq_true _); vm_compute; reflexivity|] | apply qd_pair; [apply (bool_decide_eq_true _); vm_compute; reflexivity|]].
Lemma ey_separates data : has_prefix (L "--xY") data = false -> contains (line_end ++ L "--xY") data = false -> separates ey_b data.
Proof.
  intros H1 H2 x y E. change line_end with (["013"; "010"]%char) in *. destruct x as [|a [|c x]]; cbn [app] in E.
  - injection E as ->. assert (true = false) as Hx; [|done]. rewrite <- H1. symmetry. exact (has_prefix_app (L "--xY") y).
  - done.
  - injection E as _ _ ->. assert (contains (["013"; "010"]%char ++ L "--xY") (x ++ (["013"; "010"]%char ++ L "--xY") ++ y) = true) as Hc; [|].
    + apply contains_true. by exists x, y.
    + assert (true = false) as Hx; [|done]. rewrite <- H2. symmetry. exact Hc.
Qed.
Lemma ey_text : body_text ey_b [ey_field; ey_file] ey_body.
Proof.
  apply (bt_part ey_b ey_field [ey_file]).
  - apply (pt_part ey_field (L "form-data; name=""t""") [] []); [|done|constructor]. apply (dt_field ey_field (L "t")); [done|]. ey_quoted.
  - apply ey_separates; vm_compute; reflexivity.
  - apply (bt_part ey_b ey_file []).
    + assert (Forall other_header [(L "content-type", L "text/plain")]) as Ho.
      { repeat constructor; try (vm_compute; discriminate); apply (bool_decide_eq_true _); vm_compute; reflexivity. }
      apply (pt_part ey_file (L "form-data; name=""f""; filename=""q\""u\\.txt""") [] [(L "content-type", L "text/plain")]); [|done|exact Ho].
      apply (dt_file ey_file (L "q""u\.txt") (L "f") (L "q\""u\\.txt")); [done|ey_quoted|ey_quoted].
    + apply ey_separates; vm_compute; reflexivity.
    + apply (bt_end ey_b line_end). right. exists []. reflexivity.
Qed.
Example C111_case :
  boundary ey_b /\ type_text ey_b (h_get (rq_header ey_req) (L "Content-Type")) /\ body_text ey_b [ey_field; ey_file] ey_body /\
  fields_length [ey_field; ey_file] <= 10 * 1024 * 1024 /\ asks ey_req (L "t=1") /\ query_text (L "t=1") [(L "t", L "1")] true /\
  (forall max, 0 <= max -> exists s u, fdos true (net_incoming Some max ey_req ey_body) 7
     [CQuery (L "t"); CFormFile (L "f"); CFormFile (L "t")] no_forms = (s, [AValues [L "1"; it_data ey_field]; AFile (FFile u); AFile FMissing]) /\
     up_name u = L "q""u\.txt" /\ up_content u = L "--x" ++ line_end /\ h_get (up_header u) (L "Content-Type") = L "text/plain").
Proof.
  assert (boundary ey_b /\ type_text ey_b (h_get (rq_header ey_req) (L "Content-Type")) /\ body_text ey_b [ey_field; ey_file] ey_body /\
    fields_length [ey_field; ey_file] <= 10 * 1024 * 1024 /\ asks ey_req (L "t=1") /\ query_text (L "t=1") [(L "t", L "1")] true) as (H1 & H2 & H3 & H4 & H5 & H6).
  { split_and!; [exact ey_boundary|exact ey_type|exact ey_text|vm_compute; discriminate| |].
    - apply (asks_query _ (L "/")); [reflexivity|]. apply (bool_decide_eq_true _). vm_compute. reflexivity.
    - apply qt_last, pc_pair. apply (pt_both (L "t") (L "1") (L "t") (L "1")); eq_spelled. }
  split_and!; try done. intros max Hmax.
  assert (rq_method ey_req ∈ [L "POST"; L "PUT"; L "PATCH"]) as H0 by (rewrite !elem_of_cons; by left).
  destruct (calls_find Some max true 7 ey_req ey_b [ey_field; ey_file] ey_body (L "t=1") [(L "t", L "1")]
    [CQuery (L "t"); CFormFile (L "f"); CFormFile (L "t")] Hmax H0 H1 H2 H3 H4 H5 H6) as (s & l & E & Hl).
  rewrite E. inversion Hl as [|? a1 ? ? Ha1 Hl1]; subst. inversion Hl1 as [|? a2 ? ? Ha2 Hl2]; subst. inversion Hl2 as [|? a3 ? ? Ha3 Hl3]; subst. inversion Hl3; subst.
  inversion Ha1; subst; [|by destruct H as [?|?]]. inversion Ha2 as [| |k i l' u Hk Hs Ha|k Hk|? ? ? Hc| |]; subst.
  2:{ destruct Hk as [Hk|Hk]; vm_compute in Hk; discriminate. } 2:{ by destruct Hc as [?|?]. }
  inversion Ha3 as [| |k i' l'' u' Hk' Hs'|k Hk'|? ? ? Hc| |]; subst.
  1:{ vm_compute in Hs'. discriminate. } 2:{ by destruct Hc as [?|?]. }
  exists s, u. change (sent_files (L "f") [ey_field; ey_file]) with [ey_file] in Hs. injection Hs as <- <-.
  destruct Ha as (Ha & Hb & Hc). split; [|split; [|split]].
  - reflexivity.
  - cbn [it_file ey_file] in Ha. congruence.
  - exact Hb.
  - unfold h_get. rewrite Hc; [reflexivity|apply token_dec; vm_compute; reflexivity|vm_compute; discriminate].
Qed.

(** the same form without the last byte of its closing boundary, and an empty type *)
Definition ey_cut : gostr := take (length ey_body - 3) ey_body.
Lemma ey_closing b is body : body_text b is body -> exists x y, body = x ++ (L "--" ++ b ++ L "--") ++ y.
Proof.
  induction 1 as [rest Hr|i is text rest Hp Hs Hb (x & y & ->)].
  - exists [], rest. cbn [app]. by rewrite <- !app_assoc.
  - exists (L "--" ++ b ++ line_end ++ text ++ line_end ++ x), y. by rewrite <- !app_assoc.
Qed.
Example C111_cut_case :
  ey_body = ey_cut ++ L "-" ++ line_end /\ (forall is, ~ body_text ey_b is ey_cut) /\
  (forall qp max, net_multi qp max ey_ct ey_cut = None) /\
  (forall qp max, exists s l, fdos true (net_incoming qp max ey_req ey_cut) 7
     [CFormFile (L "f"); CQuery (L "t"); CQuery (L "t")] no_forms = (s, [AFile FError; APanic; AValues [L "1"]] ++ l)) /\
  (forall x y z, L "text/plain; boundary=xY" = x ++ y ++ z -> map lower_byte y <> L "multipart/form-data").
Proof.
  assert (ey_body = ey_cut ++ L "-" ++ line_end) as E by (vm_compute; reflexivity).
  assert (forall is, ~ body_text ey_b is ey_cut) as Hno.
  { intros is H. apply ey_closing, contains_true in H. revert H. apply (bool_decide_eq_true _). vm_compute. reflexivity. }
  assert (forall qp max, net_multi qp max ey_ct ey_cut = None) as Hnone.
  { intros qp max. eapply C111_cut_off; [exact ey_boundary|exact ey_type| |exact Hno]. rewrite <- E. exact ey_text. }
  split_and!; try done.
  - intros qp max. assert (rq_method ey_req ∈ [L "POST"; L "PUT"; L "PATCH"]) as H0 by (rewrite !elem_of_cons; by left).
    assert (asks ey_req (L "t=1")) as H5.
    { apply (asks_query _ (L "/")); [reflexivity|]. apply (bool_decide_eq_true _). vm_compute. reflexivity. }
    assert (query_text (L "t=1") [(L "t", L "1")] true) as H6.
    { apply qt_last, pc_pair. apply (pt_both (L "t") (L "1") (L "t") (L "1")); eq_spelled. }
    destruct (C111_broken qp max true 7 ey_req ey_b ey_cut (L "t=1") _ [CFormFile (L "f"); CQuery (L "t"); CQuery (L "t")] H0 ey_boundary ey_type (Hnone qp max) H5 H6)
      as (s & l & -> & Hl). exists s, [].
    inversion Hl as [|? ? ? Ha|? ? ? ? ? _ Hf Hl1]; subst; [by destruct Ha as [?|[[? ?]|(? & ? & ?)]]|]. inversion Hf; subst; [|by destruct H as [?|?]].
    inversion Hl1 as [|? ? ? _ Hl2|? ? ? ? ? Hd]; subst; [|exfalso; discriminate Hd; right; left; by eexists].
    inversion Hl2 as [| |? ? ? ? ? _ Hf2 Hl3]; subst. inversion Hf2; subst; [|by destruct H as [?|?]]. inversion Hl3; subst. reflexivity.
  - intros x y z E1 E2. assert (contains (L "multipart/form-data") (map lower_byte (L "text/plain; boundary=xY")) = true) as Hc.
    { apply contains_true. exists (map lower_byte x), (map lower_byte z). by rewrite E1, !map_app, E2. }
    vm_compute in Hc. discriminate.
Qed.
(** a second part that is not closed properly *)
Definition ey_spoilt : gostr :=
  L "--" ++ ey_b ++ line_end ++ (L "Content-Disposition: form-data; name=""t""" ++ line_end ++ line_end ++ it_data ey_field) ++ line_end ++
  L "--" ++ ey_b ++ L "-+" ++ line_end ++ L "--" ++ ey_b ++ L "--" ++ line_end.
Example C111_spoilt_case : spoilt_text ey_b ey_spoilt /\ forall qp max, net_multi qp max ey_ct ey_spoilt = None.
Proof.
  assert (spoilt_text ey_b ey_spoilt) as H.
  { apply (sp_here ey_b ey_field _ (L "-+") (L "--" ++ ey_b ++ L "--" ++ line_end)).
    - apply (pt_part ey_field (L "form-data; name=""t""") [] []); [|done|constructor]. apply (dt_field ey_field (L "t")); [done|]. ey_quoted.
    - apply ey_separates; vm_compute; reflexivity.
    - split; [apply (bool_decide_eq_true _); vm_compute; reflexivity|]. split; [exists "-"%char, (L "+"); split; [done|by right]|].
      intros y Hy. split; [|discriminate]. intros <-. inversion Hy as [|? ? [E|E]]; discriminate E. }
  split; [exact H|]. intros qp max. eapply C111_spoilt; [exact ey_boundary|exact ey_type|exact H].
Qed.
