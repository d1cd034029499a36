(** Multipart forms in the calls of a handler. *)
From Coq Require Import ZArith NArith.
From Verif Require Import Base GoStr GoStrFacts GetterFacts Strconv Pattern Tree Header Router Ctx CallSpec HttpFacts Util Binding BindingSpec BindingTop RequestSpec RequestFacts
  NetQuery QuerySpec QueryFacts Forms FormsSpec FormsFacts NetMultipart MultipartSpec MultipartFacts Upload.
Local Open Scope Z_scope.

(** mime.ParseMediaType: the type, whether there is no error, whether there is a boundary *)
Definition net_media (ct : gostr) : gostr * bool * bool :=
  let '(t, ps, ok) := ParseMediaType ct in (t, ok, bool_decide (is_Some (ps !! L "boundary"))).
(** what net/http makes of a request with this body, of which ReadForm is given [max]
    bytes of memory; the body can be read once *)
Definition net_incoming (quoted_printable : gostr -> option gostr) (max : Z) (r : request) (body : gostr) : incoming (D:=upload) :=
  mkIncoming r net_media (ParseQuery (raw_query r))
    (if (N.of_nat (length body) <=? maxFormSize)%N then ParseQuery body else (∅, false))
    (fun n => match n with O => net_multi quoted_printable max (h_get (rq_header r) (L "Content-Type")) body | S _ => None end).

Lemma field_pairs_values name is : values_of name (field_pairs is) = if decide (name = []) then [] else field_values name is.
Proof.
  unfold values_of, field_pairs, field_values, named_fields. induction is as [|i is IH]; [by destruct (decide _)|]. cbn [List.filter].
  destruct (decide (name = [])) as [->|Hn].
  - destruct (bool_decide (it_name i <> [] /\ _)) eqn:E; [|exact IH]. apply bool_decide_eq_true in E as [E _]. cbn [map List.filter fst].
    by rewrite bool_decide_eq_false_2.
  - destruct (decide (it_name i = name)) as [E|E].
    + destruct (is_file i) eqn:Ef.
      * rewrite !bool_decide_eq_false_2 by (intros [_ ?]; congruence). exact IH.
      * rewrite (bool_decide_eq_true_2 (it_name i <> [] /\ _)) by (split; congruence). rewrite (bool_decide_eq_true_2 (it_name i = name /\ _)) by done.
        cbn [map List.filter fst]. rewrite bool_decide_eq_true_2 by done. cbn [map snd]. by rewrite IH.
    + rewrite (bool_decide_eq_false_2 (it_name i = name /\ _)) by tauto. rewrite <- IH.
      destruct (bool_decide (it_name i <> [] /\ _)); [|done]. cbn [map List.filter fst]. by rewrite bool_decide_eq_false_2.
Qed.
Lemma arrived_holds is vs fs : form_arrived is vs fs -> QuerySpec.holds vs (field_pairs is).
Proof.
  intros (H1 & _ & H2 & _) name. rewrite field_pairs_values. destruct (decide (name = [])) as [->|Hn]; [exact H2|by apply H1].
Qed.
Lemma holds_of f ps k : QuerySpec.holds f ps -> of f k = values_of k ps.
Proof. intros H. unfold of. rewrite H. by destruct (values_of k ps). Qed.
Lemma of_default {X} (m : gmap gostr (list X)) k : default [] (m !! k) = of m k.
Proof. unfold of. by destruct (m !! k). Qed.
Lemma type_request r b : rq_method r ∈ [L "POST"; L "PUT"; L "PATCH"] -> type_text b (h_get (rq_header r) (L "Content-Type")) -> multipart_request r.
Proof.
  intros Hm Ht. split; [exact Hm|]. destruct Ht; [exists [], (L "; boundary=" ++ b)|exists [], (L "; boundary=""" ++ b ++ L """")]; reflexivity.
Qed.
Lemma type_media b ct : type_text b ct -> media_type ct (L "multipart/form-data").
Proof.
  intros [|]; [exists (L "; boundary=" ++ b)|exists (L "; boundary=""" ++ b ++ L """")]; (split; [reflexivity|]);
    (split; [apply (bool_decide_eq_true _); vm_compute; reflexivity|]); (split; [apply (bool_decide_eq_true _); vm_compute; reflexivity|]);
    right; eexists ";"%char, _; (split; [reflexivity|by right]).
Qed.
Lemma values_of_app k ps qs : values_of k (ps ++ qs) = values_of k ps ++ values_of k qs.
Proof. unfold values_of. by rewrite List.filter_app, map_app. Qed.
Theorem calls_find qp max late memory r b is body q ps cs : 0 <= max ->
  rq_method r ∈ [L "POST"; L "PUT"; L "PATCH"] -> boundary b -> type_text b (h_get (rq_header r) (L "Content-Type")) ->
  body_text b is body -> fields_length is <= 10 * 1024 * 1024 -> asks r q -> query_text q ps true ->
  exists s l, fdos late (net_incoming qp max r body) memory cs no_forms = (s, l) /\ Forall2 (finds ps is) cs l.
Proof.
  intros Hmax Hm Hb Ht Hbody Hlen Hq Hps.
  destruct (net_multi_form b is _ body qp max Hb Ht Hbody Hmax Hlen) as (vs & fs & Em & Ha).
  destruct (ParseQuery_holds _ _ _ Hps) as [Hu Hok]. rewrite <- (asks_raw _ _ Hq) in Hu, Hok.
  destruct (ParseQuery (raw_query r)) as [url ok] eqn:Eu. cbn [fst snd] in Hu, Hok. subst ok.
  set (inc := net_incoming qp max r body).
  assert (FormsSpec.holds inc (fun k => of url k ++ of vs k) (Some (vs, fs))) as Hh.
  { apply holds_upload.
    - by apply (type_request r b).
    - cbn [in_media inc net_incoming]. unfold net_media, FormsSpec.content_type. cbn [in_req inc net_incoming].
      destruct (type_boundary b _ Hb Ht) as (pm & -> & Hpm). cbn [bool_decide]. rewrite bool_decide_eq_true_2; [done|]. by eexists.
    - cbn [in_multi inc net_incoming]. exact Em.
    - cbn [in_url inc net_incoming]. exact Eu. }
  destruct (dos_kept late memory inc _ _ Hh cs no_forms) as (s & l & E & _ & Hl); [by left|].
  exists s, l. split; [exact E|]. eapply Forall2_impl; [exact Hl|]. clear E Hl s l.
  pose proof (arrived_holds _ _ _ Ha) as Hv.
  assert (forall k, of url k ++ of vs k = values_of k (ps ++ field_pairs is)) as Hall.
  { intros k. rewrite values_of_app. by rewrite (holds_of url ps), (holds_of vs (field_pairs is)). }
  assert (forall bd a, gives (fun k => of url k ++ of vs k) (Some (vs, fs)) bd a -> finds ps is (CBindWith bd) a) as Hg.
  { intros bd a Hga. inversion Hga as [f Hf|vs' fs' Hf|Hf|b' Hb']; subst.
    - apply finds_form. intros name. rewrite <- Hall, <- Hf. unfold of. by destruct (f !! name).
    - injection Hf as <- <-. apply finds_upload; [by right|done].
    - done.
    - by apply finds_other. }
  intros c a Hr. inversion Hr as [k|k v l Hk|k Hk|k vs' fs' d l Hup Hk|k vs' fs' Hup Hk|k Hup|bd a' Hga|m bd a' Hmt Hch Hga]; subst.
  - rewrite Hall. constructor.
  - rewrite Hall in Hk. assert (v = hd [] (values_of k (ps ++ field_pairs is))) as -> by (by rewrite Hk). constructor.
  - rewrite Hall in Hk. assert (AValue [] = AValue (D:=upload) (hd [] (values_of k (ps ++ field_pairs is)))) as -> by (by rewrite Hk). constructor.
  - injection Hup as <- <-. destruct Ha as (_ & Hf & _ & He). destruct (decide (k = [])) as [->|Hne].
    + pose proof (f_equal (fun o => match o with Some l => l | None => [] end) He : of fs [] = []) as Hx. by rewrite Hx in Hk.
    + destruct (Hf k Hne) as [H2 _]. rewrite of_default, Hk in H2.
      apply Forall2_cons_inv_r in H2 as (i & is' & Hi & _ & Es). by eapply finds_file.
  - injection Hup as <- <-. destruct Ha as (_ & Hf & _ & He). apply finds_no_file. destruct (decide (k = [])) as [->|Hne]; [by left|right].
    destruct (Hf k Hne) as [H2 _]. rewrite of_default, Hk in H2. by apply Forall2_nil_inv_r in H2.
  - done.
  - by apply Hg.
  - assert (m = L "multipart/form-data") as ->.
    { apply type_media in Ht. apply media_filter in Hmt. apply media_filter in Ht. unfold FormsSpec.content_type in Hmt. cbn [in_req inc net_incoming] in Hmt. congruence. }
    cbn [in_req inc net_incoming] in Hch. apply Hg in Hga.
    assert (bd = BMultipart) as ->.
    { destruct bd; cbn [chooses] in Hch; try done.
      - destruct Hch as [_ Hx]. vm_compute in Hx. discriminate.
      - destruct Hch as [_ Hx]. exfalso. revert Hx. apply (bool_decide_eq_true _). vm_compute. reflexivity.
      - exfalso. destruct Hch as [Hx|[_ Hx]]; [|by apply Hx]. rewrite Hx in Hm. revert Hm. apply (bool_decide_eq_true _). vm_compute. reflexivity. }
    inversion Hga; subst; try done; [by apply finds_upload; [left|]|]. exfalso.
    match goal with H : BMultipart ∈ _ |- _ => revert H end. apply (bool_decide_eq_true _). vm_compute. reflexivity.
Qed.

(** ** Every form can be sent *)
Lemma quoted_total (s : gostr) : Forall (fun a => a ∉ ["013"; "010"]%char) s -> exists t, quoted s t.
Proof.
  induction 1 as [|a s Ha _ [t IH]]; [by exists []; constructor|].
  destruct (decide (a ∈ [""""; "\"]%char)) as [H|H]; [by exists ("\"%char :: a :: t); constructor|].
  exists (a :: t). constructor; [|done]. rewrite !elem_of_cons in *. tauto.
Qed.
Definition writable (i : item) : Prop :=
  Forall (fun a => a ∉ ["013"; "010"]%char) (it_name i) /\ Forall (fun a => a ∉ ["013"; "010"]%char) (default [] (it_file i)) /\ Forall other_header (it_headers i).
Lemma part_total i : writable i -> exists t, part_text i t.
Proof.
  intros (H1 & H2 & H3). destruct (quoted_total _ H1) as [n Hn]. assert (exists d, disposition_text i d) as [d Hd].
  { destruct (it_file i) as [f|] eqn:Ef.
    - cbn in H2. destruct (quoted_total _ H2) as [m Hm]. eexists. by eapply dt_file.
    - eexists. by eapply dt_field. }
  eexists. eapply (pt_part i d [] (it_headers i)); done.
Qed.
Lemma absent_separates b (data : gostr) : (forall x y, data <> x ++ b ++ y) -> separates b data.
Proof.
  intros H x y E. destruct x as [|a [|c x]].
  - cbn [app] in E. change line_end with (["013"; "010"]%char) in E. cbn [app] in E. injection E as E. by apply (H (L "--") y).
  - change line_end with (["013"; "010"]%char) in E. cbn [app] in E. done.
  - change line_end with (["013"; "010"]%char) in E. cbn [app] in E. injection E as _ _ E. apply (H (x ++ ["013"; "010"]%char ++ L "--") y).
    rewrite E. by rewrite <- !app_assoc.
Qed.
Lemma body_total b is : Forall writable is -> Forall (fun i => forall x y, it_data i <> x ++ b ++ y) is -> exists body, body_text b is body.
Proof.
  induction is as [|i is IH]; intros H1 H2; [by eexists; apply (bt_end b []); left|].
  inversion H1; inversion H2; subst. destruct IH as [rest Hr]; [done..|]. destruct (part_total i) as [t Ht]; [done|].
  eexists. eapply bt_part; [exact Ht|by apply absent_separates|exact Hr].
Qed.
Lemma arrived_data (is : list item) us : Forall2 arrived is us -> map it_data is = map up_content us /\ map it_file is = map (fun u => Some (up_name u)) us.
Proof. induction 1 as [|i u is us (H1 & H2 & _) _ [IH1 IH2]]; [done|]. cbn [map]. split; congruence. Qed.
