(** Properties of binding requests to Go values.  MapForm is the function that
    fills a value from a form ([files]: uploaded files; [tag]: the struct tag that
    is looked at), ctx.Bind chooses the decoder and validates the result. *)
From Coq Require Import ZArith NArith.
From Verif Require Import Base GoStr Strconv Header UtilSpec StrconvFacts UtilFacts Pattern Tree Router Ctx Util Binding BindCtx
  BindingSpec BindingFacts BindingMore BindingTop ExampleBinding BodySpec.

(** ** C31: the decoder *)
(** Every Content-Type has one media type, and method and media type determine the
    decoder. *)
Theorem C31_choice :
  forall method header,
  exists media, media_type header media /\ (forall m, media_type header m -> m = media) /\
    forall b, NewBindinger method (filterFlags header) = b <-> chooses method media b.
Proof.
  intros method header. exists (filterFlags header). split_and!; [apply media_exists| |intros b; apply choice].
  intros m Hm. by apply media_filter in Hm.
Qed.
Print Assumptions C31_choice.
(** ctx.Bind with JSON or XML: the unread body is decoded, then the value is
    validated; the form is left alone. *)
Theorem C31_body :
  forall (A V D : Type) (G : golib D) mform query json_body xml_body sniff parse_form
    fuel obj k next (x : ctxobj A V) (c : conn V) m b,
  media_type (h_get (rq_header (cn_req c)) (L "Content-Type")) m -> chooses (rq_method (cn_req c)) m b -> b = BJSON \/ b = BXML ->
  let '(obj', ok) := (if decide (b = BJSON) then json_body else xml_body) (unread (cn_body c)) obj in
  exists out c', pexec sniff parse_form next (Bind G mform query json_body xml_body fuel obj k) x c = pexec sniff parse_form next (k out) x c' /\
    (ok = false -> out = (obj', BErr EDecode)) /\ (ok = true -> then_validated G obj' out) /\
    cn_req c' = cn_req c /\ cn_rw c' = cn_rw c /\ cn_body c' = spent (cn_body c) /\ cn_form c' = cn_form c.
Proof. intros. by apply bind_body with (m := m). Qed.
Print Assumptions C31_body.
(** ctx.Bind with a form that has not been parsed yet: it is parsed (a parse error
    panics), its values fill the object, and then the object is validated. *)
Theorem C31_form :
  forall (A V D : Type) (G : golib D) mform query json_body xml_body sniff parse_form
    fuel obj k next (x : ctxobj A V) (c : conn V) m b f ok rest,
  media_type (h_get (rq_header (cn_req c)) (L "Content-Type")) m -> chooses (rq_method (cn_req c)) m b -> b = BForm \/ b = BMultipart ->
  x_parsed x = false -> parse_form (is_multipart (cn_req c)) (cn_req c) (unread (cn_body c)) = (f, ok, rest) ->
  let bind := pexec sniff parse_form next (Bind G mform query json_body xml_body fuel obj k) x c in
  (ok = false -> exists v x' c', bind = (EThrow (Some v), (x', c')) /\ cn_rw c' = cn_rw c) /\
  (ok = true -> exists out c', bind = pexec sniff parse_form next (k out) (set_parsed x) c' /\
    match (if decide (b = BForm) then Some (f, ∅) else mform (cn_req c)) with
    | None => out = (obj, BErr EForm)
    | Some (form, files) => exists order, visits order form /\
       let '(obj', o) := MapForm G fuel obj form order files (L "form") in
       (o <> BOk -> out = (obj', o)) /\ (o = BOk -> then_validated G obj' out)
    end /\
    cn_req c' = cn_req c /\ cn_rw c' = cn_rw c /\ cn_body c' = mkBody rest (bd_feed (cn_body c)) /\ cn_form c' = Some f).
Proof. intros. by apply bind_form with (m := m). Qed.
Print Assumptions C31_form.
Example C31_example :
  media_type (L "application/json; charset=utf-8") (L "application/json") /\
  chooses (L "POST") (L "application/json") BJSON /\ chooses (L "GET") (L "application/json") BForm /\
  chooses (L "PUT") (L "multipart/form-data") BMultipart /\ chooses (L "DELETE") (L "multipart/form-data") BForm /\
  NewBindinger (L "PATCH") (filterFlags (L "text/xml ;q")) = BXML.
Proof.
  split_and!; try done.
  - exists (L "; charset=utf-8"). split_and!; [reflexivity| | |right; eauto]; apply (bool_decide_eq_true _); vm_compute; reflexivity.
  - by left.
  - split; [right; left|done].
  - right. split; [apply (bool_decide_eq_true _); vm_compute; reflexivity|]. intros _. apply (bool_decide_eq_true _); vm_compute; reflexivity.
Qed.

(** ** C32: integers *)
(** An integer field is cut to its width: int8 bound to 300 holds 44. *)
Theorem C32_refuted :
  exists (G : golib Z) fs v v' form order z, wf_lib G /\ wf_type (TStruct fs) /\ typed G (TStruct fs) v /\
    form !! L "age" = Some [L "300"] /\ decimal (L "300") 300 /\ visits order form /\
    fs = [(bx_field (L "Age") (L "age"), TInt 8)] /\
    (forall n, (2 <= n)%nat -> MapForm G n (Some (TPtr (TStruct fs), VPtr (Some v))) form order ∅ (L "form") = (Some (TPtr (TStruct fs), VPtr (Some v')), BOk)) /\
    v' = VStruct [VNum z] /\ z <> 300%Z.
Proof.
  exists bx_lib, [(bx_field (L "Age") (L "age"), TInt 8)], (VStruct [VNum 0]), (VStruct [VNum 44]), {[ L "age" := [L "300"] ]},
    (map_to_list {[ L "age" := [L "300"] ]}), 44%Z.
  split_and!; try done.
  - cbn. split; [left|done].
  - constructor. constructor; [constructor; vm_compute; split; congruence|constructor].
  - apply (itoa_decimal 300).
  - by unfold visits.
  - intros [|[|n]] Hn; [lia|lia|]. vm_compute. reflexivity.
Qed.
Print Assumptions C32_refuted.
(** On success an integer field (or what it points to) holds the number that the
    first of its texts stands for, unless that number does not fit; so it is
    bound to a number in any case.  The same of each element of a slice of
    integers. *)
Theorem C32_partial :
  forall D (G : golib D) fuel e fs v v' form order files tag p fl f u w vals,
  wf_lib G -> resolve G e = TStruct fs -> wf_type (TStruct fs) -> typed G (TStruct fs) v ->
  place G (TStruct fs) v p fl f u w -> Forall (fun g => ~ selected form files tag g) fl ->
  f_exported f = true -> leaf G f u w -> texts form tag f vals ->
  MapForm G fuel (Some (TPtr e, VPtr (Some v))) form order files tag = (Some (TPtr e, VPtr (Some v')), BOk) ->
  (integer_field G u -> exists s rest w', vals = s :: rest /\ value_at v' p = Some w' /\ (carries G u w s w' \/ too_big G u s)) /\
  (forall e', u = TSlice e' -> integer_field G (resolve G e') -> exists l, vals <> [] /\ value_at v' p = Some (VSlice (Some l)) /\
     Forall2 (fun s w' => carries G (resolve G e') (zero G (resolve G e')) s w' \/ too_big G (resolve G e') s) vals l).
Proof.
  intros D G fuel e fs v v' form order files tag p fl f u w vals Hlib Er Hw Ht Hp Hfl Hx Hleaf Htx E.
  assert (forall t, integer_field G t -> plain_field G t) as Hi.
  { intros t [H|(e0 & -> & H)]; [left; by destruct t|right; exists e0; split; [done|by destruct (resolve G e0)]]. }
  assert (forall t, integer_field G t -> forall w s, ~ clears G t w s) as Hc.
  { intros t [H|(e0 & -> & H)] w0 s Hcl; inversion Hcl; subst; try done.
    match goal with K : clears G (resolve G e0) _ _ |- _ => inversion K as [? ? E1|? ? ? ? E1]; rewrite <- E1 in H; done end. }
  destruct (written G _ _ _ _ _ _ _ _ _ _ _ _ _ _ vals Hlib Er Hw Ht Hp Hfl Hx Hleaf Htx E) as [H1 H2]. split.
  - intros Hu. destruct (H1 (Hi u Hu)) as (s & rest & w' & -> & Hv & [H|[H|[H _]]]); [eauto 10|eauto 10|by apply Hc in H].
  - intros e' -> Hu. by apply H2; [|apply Hi].
Qed.
Print Assumptions C32_partial.
(** what [carries] says of a number *)
Example C32_carries : forall D (G : golib D) b s a, carries G (TInt 8) b s a -> exists z, a = VNum z /\ number s z /\ (-128 <= z < 128)%Z.
Proof. intros D G b s a H. inversion H as [? ? ? z Hn Hf| | | | | | |]; subst. exists z. split_and!; [done|done|apply Hf..]. Qed.
Example C32_example : exists p fl f w, place bx_lib bx_type bx_value p fl f (TInt 8) w /\ leaf bx_lib f (TInt 8) w /\
  texts bx_form (L "form") f [L "7"] /\ value_at bx_after p = Some (VNum 7) /\ value_at bx_value p = Some (VNum 1).
Proof.
  exists [1%nat], [], (bx_field (L "Age") (L "age,default=7")), (VNum 1). split_and!; try done.
  - by apply place_here.
  - apply bx_texts. vm_compute. done.
Qed.

(** ** C33: which fields *)
(** A field that is not exported, or that no key and no default of the form
    belongs to, keeps its value, whether the call succeeds or not. *)
Theorem C33_untouched :
  forall D (G : golib D) fuel e fs v v' o form order files tag p fl f u w,
  wf_lib G -> resolve G e = TStruct fs -> wf_type (TStruct fs) -> typed G (TStruct fs) v ->
  place G (TStruct fs) v p fl f u w -> Forall (fun g => ~ selected form files tag g) fl ->
  (f_exported f = true /\ leaf G f u w /\ ~ selected form files tag f) \/ ~ open_field f ->
  MapForm G fuel (Some (TPtr e, VPtr (Some v))) form order files tag = (Some (TPtr e, VPtr (Some v')), o) ->
  (value_at v' p = Some w \/ value_at v' p = None) /\ (o = BOk -> value_at v' p = Some w).
Proof. intros D G fuel e fs v v' o form order files tag p fl f u w. apply untouched. Qed.
Print Assumptions C33_untouched.
(** A field with a key in the form, or a default, is set, up to the two exceptions
    of C32 and C56. *)
Theorem C33_written_partial :
  forall D (G : golib D) fuel e fs v v' form order files tag p fl f u w vals,
  wf_lib G -> resolve G e = TStruct fs -> wf_type (TStruct fs) -> typed G (TStruct fs) v ->
  place G (TStruct fs) v p fl f u w -> Forall (fun g => ~ selected form files tag g) fl ->
  f_exported f = true -> leaf G f u w -> texts form tag f vals ->
  MapForm G fuel (Some (TPtr e, VPtr (Some v))) form order files tag = (Some (TPtr e, VPtr (Some v')), BOk) ->
  (plain_field G u -> exists s rest w', vals = s :: rest /\ value_at v' p = Some w' /\
     (carries G u w s w' \/ too_big G u s \/ (clears G u w s /\ w' = w))) /\
  (forall e', u = TSlice e' -> plain_field G (resolve G e') -> exists l, vals <> [] /\ value_at v' p = Some (VSlice (Some l)) /\
     Forall2 (fun s w' => carries G (resolve G e') (zero G (resolve G e')) s w' \/ too_big G (resolve G e') s) vals l).
Proof. intros D G fuel e fs v v' form order files tag p fl f u w vals. apply written. Qed.
Print Assumptions C33_written_partial.
(** A field with uploaded files under its key (and no text) gets the first file, or
    all of them; fields of other types make the call fail. *)
Theorem C33_uploads :
  forall D (G : golib D) fuel e fs v v' form order files tag p fl f u w ups,
  wf_lib G -> resolve G e = TStruct fs -> wf_type (TStruct fs) -> typed G (TStruct fs) v ->
  place G (TStruct fs) v p fl f u w -> Forall (fun g => ~ selected form files tag g) fl ->
  f_exported f = true -> leaf G f u w -> uploads form files tag f ups ->
  MapForm G fuel (Some (TPtr e, VPtr (Some v))) form order files tag = (Some (TPtr e, VPtr (Some v')), BOk) ->
  (exists e1 d rest, u = TPtr e1 /\ resolve G e1 = TFile /\ ups = d :: rest /\ value_at v' p = Some (VPtr (Some (VOpaque d)))) \/
  (exists e1 e2, u = TSlice e1 /\ e1 = TPtr e2 /\ resolve G e2 = TFile /\ ups <> [] /\
     value_at v' p = Some (VSlice (Some (map (fun d => VPtr (Some (VOpaque d))) ups)))).
Proof. intros D G fuel e fs v v' form order files tag p fl f u w ups. apply uploaded. Qed.
Print Assumptions C33_uploads.
(** The call succeeds when every field is unexported, or holds a value and is not
    selected or has readable texts, or holds (or gets) a struct and is not
    selected itself. *)
Theorem C33_accepted :
  forall D (G : golib D) fs v e form order files tag,
  wf_lib G -> resolve G e = TStruct fs -> wf_type (TStruct fs) -> typed G (TStruct fs) v -> finite_depth G (TStruct fs) v ->
  (forall p fl f u w, place G (TStruct fs) v p fl f u w ->
     ~ open_field f \/
     (f_exported f = true /\ valued G f u w /\ (selected form files tag f -> exists vals, texts form tag f vals /\ readable G f u w vals)) \/
     ((exists t' v', opens G f u w t' v') /\ ~ selected form files tag f)) ->
  exists fuel v', MapForm G fuel (Some (TPtr e, VPtr (Some v))) form order files tag = (Some (TPtr e, VPtr (Some v')), BOk).
Proof. intros D G fs v e form order files tag. apply accepted. Qed.
Print Assumptions C33_accepted.
(** Not exactly those fields: a nil pointer to a struct is replaced although the
    field has no tag (or the tag "-") and the form is empty. *)
Theorem C33_refuted :
  exists (G : golib Z) fs v v', wf_lib G /\ wf_type (TStruct fs) /\ typed G (TStruct fs) v /\
    (forall (tag : gostr) ft, ft ∈ fs -> f_tag (fst ft) = [] \/ f_tag (fst ft) = [(L "form", L "-")]) /\
    v = VStruct [VPtr None; VPtr None] /\
    (forall n, (3 <= n)%nat -> MapForm G n (Some (TPtr (TStruct fs), VPtr (Some v))) ∅ [] ∅ (L "form") = (Some (TPtr (TStruct fs), VPtr (Some v')), BOk)) /\
    v' <> v.
Proof.
  set (u := TStruct [(bx_field (L "N") (L "n"), TInt 64)]).
  exists bx_lib, [(bx_plain (L "P"), TPtr u); (bx_field (L "Q") (L "-"), TPtr u)], (VStruct [VPtr None; VPtr None]),
    (VStruct [VPtr (Some (VStruct [VNum 0])); VPtr (Some (VStruct [VNum 0]))]).
  split_and!; try done.
  - cbn. rewrite !elem_of_cons. tauto.
  - constructor. repeat (apply Forall2_cons; split); try apply Forall2_nil; constructor.
  - intros tag ft H. rewrite !elem_of_cons in H. destruct H as [->|[->|H]]; [by left|by right|by apply elem_of_nil in H].
  - intros [|[|[|n]]] Hn; [lia..|]. vm_compute. reflexivity.
Qed.
Print Assumptions C33_refuted.
Example C33_example :
  place bx_lib bx_type bx_value [3; 0]%nat [bx_plain (L "In")] (bx_field (L "Ok") (L "ok")) TBool (VBool false) /\
  ~ selected bx_form bx_files (L "form") (bx_plain (L "In")) /\ texts bx_form (L "form") (bx_field (L "Ok") (L "ok")) [L "true"] /\
  value_at bx_after [3; 0]%nat = Some (VBool true) /\
  uploads bx_form bx_files (L "form") (bx_field (L "Upload") (L "up")) [11; 12]%Z /\
  ~ open_field (mkField (L "hidden") false false [(L "form", L "name")]) /\
  finite_depth bx_lib bx_type bx_value.
Proof.
  split; [|split; [|split; [|split; [|split; [|split]]]]].
  - eapply place_struct; [done|done|by left|]. by apply place_here.
  - by apply unselected_parse.
  - apply bx_texts. vm_compute. done.
  - reflexivity.
  - exists (L "up"). split; [|split; [vm_compute; reflexivity|vm_compute; reflexivity]].
    apply (tagged_parse (L "form") (bx_field (L "Upload") (L "up"))). done.
  - intros [H|H]; done.
  - apply not_recursive_finite. constructor. intros t H. 
    assert (forall t', ~ below_type bx_lib t' t) as Hn; [|by constructor; intros t' H'; apply Hn in H'].
    intros t' H'. inversion H as [fs i f fs' Hi|fs i f e Hi]; subst.
    + destruct i as [|[|[|[|[|[|i]]]]]]; try done. cbn in Hi. injection Hi as <- <-.
      inversion H' as [fs0 j f0 fs1 Hj|fs0 j f0 e Hj]; subst; destruct j; done.
    + destruct i as [|[|[|[|[|[|i]]]]]]; try done. cbn in Hi. injection Hi as <- <-. inversion H'.
Qed.

(** ** C34: termination *)
(** A type that contains itself through nil pointers is never finished with. *)
Theorem C34_refuted :
  exists (G : golib Z) e fs v, wf_lib G /\ resolve G e = TStruct fs /\ wf_type (TStruct fs) /\ typed G (TStruct fs) v /\
    forall fuel form order files tag, snd (MapForm G fuel (Some (TPtr e, VPtr (Some v))) form order files tag) = BDiverge.
Proof.
  exists bx_lib, (TRef (L "node")), [(bx_plain (L "Next"), TPtr (TRef (L "node")))], (VStruct [VPtr None]).
  split_and!; try done; [repeat constructor|]. intros fuel form order files tag.
  rewrite (MapForm_struct bx_lib fuel _ [(bx_plain (L "Next"), TPtr (TRef (L "node")))]) by done. cbn [snd].
  induction fuel as [|fuel IH]; [done|]. rewrite mapForm_struct. cbn [map_fields].
  rewrite (step_new bx_lib _ form files tag (bx_plain (L "Next")) (TRef (L "node")) [(bx_plain (L "Next"), TPtr (TRef (L "node")))]);
    [|done|by apply unselected_parse, no_tag|done].
  change (resolve bx_lib (TRef (L "node"))) with (TStruct [(bx_plain (L "Next"), TPtr (TRef (L "node")))]).
  change (zero bx_lib (TStruct [(bx_plain (L "Next"), TPtr (TRef (L "node")))])) with (@VStruct Z [VPtr None]). rewrite IH. done.
Qed.
Print Assumptions C34_refuted.
(** A type that does not contain itself through pointers: the call ends for every
    value and every form, and the number of nested calls depends on the value
    only. *)
Theorem C34_partial :
  forall D (G : golib D) e fs v, resolve G e = TStruct fs -> not_recursive G (TStruct fs) ->
  exists fuel, forall form order files tag n, (fuel <= n)%nat ->
    MapForm G n (Some (TPtr e, VPtr (Some v))) form order files tag = MapForm G fuel (Some (TPtr e, VPtr (Some v))) form order files tag /\
    snd (MapForm G fuel (Some (TPtr e, VPtr (Some v))) form order files tag) <> BDiverge.
Proof. intros D G e fs v Er Hn. apply (ends_at G fs); [done|]. by apply not_recursive_finite. Qed.
Print Assumptions C34_partial.
(** The exact condition is the depth of the value with nil pointers to structs
    followed: if it is finite the call ends, and no call ends well otherwise. *)
Theorem C34_depth :
  forall D (G : golib D) e fs v, resolve G e = TStruct fs ->
  (finite_depth G (TStruct fs) v -> exists fuel, forall form order files tag n, (fuel <= n)%nat ->
    MapForm G n (Some (TPtr e, VPtr (Some v))) form order files tag = MapForm G fuel (Some (TPtr e, VPtr (Some v))) form order files tag /\
    snd (MapForm G fuel (Some (TPtr e, VPtr (Some v))) form order files tag) <> BDiverge) /\
  (forall fuel form order files tag obj, MapForm G fuel (Some (TPtr e, VPtr (Some v))) form order files tag = (obj, BOk) ->
    finite_depth G (TStruct fs) v).
Proof. intros D G e fs v Er. split; [by apply ends_at|]. intros fuel form order files tag obj. by apply ends_deep. Qed.
Print Assumptions C34_depth.
Example C34_example : not_recursive bx_lib bx_type /\ ~ not_recursive bx_lib bx_node.
Proof.
  split.
  - constructor. intros t H. constructor. intros t' H'. exfalso. inversion H as [fs i f fs' Hi|fs i f e Hi]; subst.
    + destruct i as [|[|[|[|[|[|i]]]]]]; try done. cbn in Hi. injection Hi as <- <-.
      inversion H' as [fs0 j f0 fs1 Hj|fs0 j f0 e Hj]; subst; destruct j; done.
    + destruct i as [|[|[|[|[|[|i]]]]]]; try done. cbn in Hi. injection Hi as <- <-. inversion H'.
  - intros H. unfold not_recursive in H. remember bx_node as t eqn:E. induction H as [t _ IH]. subst t. apply (IH bx_node); [|done].
    by apply (below_type_ptr bx_lib _ 0 (bx_plain (L "Next")) (TRef (L "node"))).
Qed.

(** ** C35: maps *)
(** map[string][]string gets every entry of the form and keeps its other ones. *)
Theorem C35_all_values :
  forall D (G : golib D) fuel e m form order files tag, resolve G e = TMapL -> visits order form ->
  MapForm G fuel (Some (TPtr e, VPtr (Some (VMapL m)))) form order files tag =
    (Some (TPtr e, VPtr (Some (VMapL (Some (form ∪ default ∅ m))))), BOk).
Proof. intros D G fuel e m form order files tag. apply map_all. Qed.
Print Assumptions C35_all_values.
(** map[string]string gets the last value of every entry, if each has one. *)
Theorem C35_last_value_partial :
  forall D (G : golib D) fuel e m form order files tag, resolve G e = TMapS -> visits order form ->
  (forall k, form !! k <> Some []) ->
  exists m', MapForm G fuel (Some (TPtr e, VPtr (Some (VMapS m)))) form order files tag = (Some (TPtr e, VPtr (Some (VMapS (Some m')))), BOk) /\
  forall k, (forall l s, form !! k = Some (l ++ [s]) -> m' !! k = Some s) /\ (form !! k = None -> m' !! k = m ≫= (.!! k)).
Proof. intros D G fuel e m form order files tag. apply map_last. Qed.
Print Assumptions C35_last_value_partial.
(** A key without values makes the call panic, in whatever order it is visited. *)
Theorem C35_refuted :
  exists (form : gmap gostr (list gostr)), form !! L "k" = Some [] /\ form !! L "other" = Some [L "v"] /\
  forall (G : golib Z) fuel e m order files tag, resolve G e = TMapS -> visits order form ->
  exists obj msg, MapForm G fuel (Some (TPtr e, VPtr (Some (VMapS m)))) form order files tag = (obj, BPanic msg).
Proof.
  exists {[ L "k" := []; L "other" := [L "v"] ]}. split_and!; [done|done|]. intros G fuel e m order files tag H1 H2. by apply (map_panics G fuel e m _ order files tag (L "k")).
Qed.
Print Assumptions C35_refuted.
Example C35_example : (forall k, bx_form !! k <> Some []) /\ visits (reverse (map_to_list bx_form)) bx_form.
Proof.
  split; [|unfold visits; apply reverse_Permutation]. intros k H. unfold bx_form in H.
  apply lookup_insert_Some in H as [[_ H]|[_ H]]; [done|]. apply lookup_insert_Some in H as [[_ H]|[_ H]]; [done|].
  apply lookup_singleton_Some in H as [_ H]. done.
Qed.

(** ** C51: validation *)
(** Without nil pointers on the way, a value is rejected iff a struct in it is (or
    it is, or contains, the nil interface); other values pass. *)
Theorem C51_partial :
  forall D (G : golib D) t v, typed G t v -> ~ nil_inside G t v ->
  (invalid G t v -> exists err, validate G (Some (t, v)) = Ok (Some err)) /\
  (~ invalid G t v -> validate G (Some (t, v)) = Ok None).
Proof. intros D G t v Ht Hn. destruct (validated G t v Ht) as (_ & H1 & H2). auto. Qed.
Print Assumptions C51_partial.
(** The errors of the elements of a slice are all reported, in order. *)
Theorem C51_all_errors :
  forall D (G : golib D) e l rs, Forall2 (fun w r => validate G (Some (resolve G e, w)) = Ok r) l rs ->
  validate G (Some (TSlice e, VSlice (Some l))) =
    Ok (match omap id rs with [] => None | errs => Some (EList errs) end).
Proof. intros D G e l rs. apply collected. Qed.
Print Assumptions C51_all_errors.
(** A nil pointer panics instead, and nothing else does. *)
Theorem C51_refuted :
  (forall D (G : golib D) t v, typed G t v -> ((exists msg, validate G (Some (t, v)) = Panic msg) <-> nil_inside G t v)) /\
  exists (G : golib Z) t v, typed G t v /\ nil_inside G t v.
Proof.
  split; [intros D G t v Ht; apply (validated G t v Ht)|].
  exists bx_lib, (TSlice (TPtr bx_node)), (VSlice (Some [VPtr None])). split.
  - constructor. repeat constructor.
  - apply (nil_slice bx_lib _ _ (VPtr None)); [left|constructor].
Qed.
Print Assumptions C51_refuted.
Definition bx_one : gotype := TStruct [(bx_plain (L "N"), TInt 64)].
Definition bx_list : list (goval Z) := [VStruct [VNum 1]; VStruct [VNum 7]; VStruct [VNum 2]].
Lemma bx_list_typed : typed bx_lib (TSlice bx_one) (VSlice (Some bx_list)).
Proof. constructor. repeat constructor; vm_compute; congruence. Qed.
Lemma bx_list_no_nil : ~ nil_inside bx_lib (TSlice bx_one) (VSlice (Some bx_list)).
Proof.
  intros H. inversion H as [| | |? ? w Hin Hw|]; subst. unfold bx_list in Hin. rewrite !elem_of_cons in Hin.
  destruct Hin as [->|[->|[->|Hin]]]; [inversion Hw..|by apply elem_of_nil in Hin].
Qed.
Example C51_example : typed bx_lib (TSlice bx_one) (VSlice (Some bx_list)) /\
  ~ nil_inside bx_lib (TSlice bx_one) (VSlice (Some bx_list)) /\ invalid bx_lib (TSlice bx_one) (VSlice (Some bx_list)) /\
  ~ invalid bx_lib (TSlice bx_one) (VSlice (Some [VStruct [VNum 1]])).
Proof.
  split_and!; [apply bx_list_typed|apply bx_list_no_nil| |].
  - apply (invalid_slice bx_lib _ _ (VStruct [VNum 7])); [right; left|]. eapply invalid_struct; [left; by eexists|reflexivity].
  - intros H. inversion H as [| | |? ? ? Hk|? ? w Hin Hw|]; subst; [by destruct Hk as [[? ?]|[?|?]]|].
    apply elem_of_list_singleton in Hin as ->. inversion Hw as [| | |? ? ? Hk Hs| |]; subst. done.
Qed.

(** ** C56: truth values *)
(** A field that is true stays true when the form says false. *)
Theorem C56_refuted :
  exists (G : golib Z) fs v form order, wf_lib G /\ wf_type (TStruct fs) /\ typed G (TStruct fs) v /\ v = VStruct [VBool true] /\
    fs = [(bx_field (L "Ok") (L "ok"), TBool)] /\ form !! L "ok" = Some [L "false"] /\ visits order form /\
    forall n, (2 <= n)%nat -> MapForm G n (Some (TPtr (TStruct fs), VPtr (Some v))) form order ∅ (L "form") = (Some (TPtr (TStruct fs), VPtr (Some v)), BOk).
Proof.
  exists bx_lib, [(bx_field (L "Ok") (L "ok"), TBool)], (VStruct [VBool true]), {[ L "ok" := [L "false"] ]}, (map_to_list {[ L "ok" := [L "false"] ]}).
  split_and!; try done.
  - constructor. repeat constructor.
  - by unfold visits.
  - intros [|[|n]] Hn; [lia..|]. vm_compute. reflexivity.
Qed.
Print Assumptions C56_refuted.
(** A field that was false, or a nil pointer, holds what the text says. *)
Theorem C56_partial :
  forall D (G : golib D) fuel e fs v v' form order files tag p fl f u w s rest,
  wf_lib G -> resolve G e = TStruct fs -> wf_type (TStruct fs) -> typed G (TStruct fs) v ->
  place G (TStruct fs) v p fl f u w -> Forall (fun g => ~ selected form files tag g) fl ->
  f_exported f = true -> leaf G f u w -> texts form tag f (s :: rest) ->
  MapForm G fuel (Some (TPtr e, VPtr (Some v))) form order files tag = (Some (TPtr e, VPtr (Some v')), BOk) ->
  (u = TBool /\ w = VBool false -> exists b, truth s b /\ value_at v' p = Some (VBool b)) /\
  (forall e', u = TPtr e' -> resolve G e' = TBool -> w = VPtr None -> exists b, truth s b /\ value_at v' p = Some (VPtr (Some (VBool b)))).
Proof.
  intros D G fuel e fs v v' form order files tag p fl f u w s rest Hlib Er Hw Ht Hp Hfl Hx Hleaf Htx E.
  destruct (written G _ _ _ _ _ _ _ _ _ _ _ _ _ _ (s :: rest) Hlib Er Hw Ht Hp Hfl Hx Hleaf Htx E) as [H1 _]. split.
  - intros [-> ->]. destruct (H1 (or_introl I)) as (s0 & r0 & w' & [= <- <-] & Hv & [H|[H|[H _]]]); [|by inversion H|by inversion H].
    inversion H; subst. eauto.
  - intros e' -> Ee ->. assert (plain_field G (TPtr e')) as Hpf by (right; exists e'; rewrite Ee; done).
    destruct (H1 Hpf) as (s0 & r0 & w' & [= <- <-] & Hv & [H|[H|[H _]]]).
    + inversion H as [| | | | | |? ? a H2|]; subst. rewrite Ee in H2. inversion H2; subst. eauto.
    + inversion H as [| |? ? H2]; subst. rewrite Ee in H2. by inversion H2.
    + by inversion H.
Qed.
Print Assumptions C56_partial.
Example C56_example : leaf bx_lib (bx_field (L "Ok") (L "ok")) TBool (VBool false) /\ value_at bx_after [3; 0]%nat = Some (VBool true).
Proof. done. Qed.

(** ** C57: the message for a slice *)
(** Only the element with index 1 is invalid; the message says 0. *)
Theorem C57_refuted :
  exists (G : golib Z) e l, typed G (TSlice e) (VSlice (Some l)) /\
    (forall i w, l !! i = Some w -> (validate G (Some (resolve G e, w)) = Ok None <-> i <> 1%nat)) /\
    validate G (Some (TSlice e, VSlice (Some l))) = Ok (Some (EList [EInvalid 0])) /\
    forall msg, slice_error [msg] = L "[0]: " ++ msg.
Proof.
  exists bx_lib, bx_one, bx_list. split_and!; [apply bx_list_typed| |reflexivity|reflexivity].
  intros [|[|[|i]]] w H; cbn in H; try done; injection H as <-; split; try done.
Qed.
Print Assumptions C57_refuted.
(** When every element is invalid the messages are numbered as the elements are. *)
Theorem C57_partial :
  forall D (G : golib D) e l errs, Forall2 (fun w r => validate G (Some (resolve G e, w)) = Ok (Some r)) l errs -> l <> [] ->
  validate G (Some (TSlice e, VSlice (Some l))) = Ok (Some (EList errs)) /\
  forall msg : berr -> gostr, slice_error (map msg errs) =
    join ["010"%char] (imap (fun i r => L "[" ++ itoa (Z.of_nat i) ++ L "]: " ++ msg r) errs).
Proof.
  intros D G e l errs H Hne. split.
  - rewrite (collected G e l (map Some errs)).
    + assert (omap id (map Some errs) = errs) as -> by (clear; induction errs as [|r errs IH]; [done|cbn; by f_equal]).
      destruct H; done.
    + clear Hne. induction H; cbn; constructor; done.
  - intros msg. unfold slice_error. change (map msg errs) with (msg <$> errs). rewrite imap_fmap. f_equal. apply imap_ext. intros i r _. unfold compose. by destruct i.
Qed.
Print Assumptions C57_partial.
(** In general: one line per failing element, in order, and the number of a line is
    how many elements failed before, not the index. *)
Theorem C57_numbers_partial :
  forall D (G : golib D) e l rs, Forall2 (fun w r => validate G (Some (resolve G e, w)) = Ok r) l rs ->
  (exists i r, rs !! i = Some (Some r)) ->
  exists errs, validate G (Some (TSlice e, VSlice (Some l))) = Ok (Some (EList errs)) /\
    (forall i r, rs !! i = Some (Some r) -> errs !! length (omap id (take i rs)) = Some r) /\
    length errs = length (omap id rs) /\
    forall msg : berr -> gostr, exists lines, slice_error (map msg errs) = join ["010"%char] lines /\ length lines = length errs /\
      forall k r, errs !! k = Some r -> lines !! k = Some (L "[" ++ itoa (Z.of_nat k) ++ L "]: " ++ msg r).
Proof.
  intros D G e l rs H (i0 & r0 & Hi0). exists (omap id rs). split_and!.
  - rewrite (collected G e l rs H). destruct (omap id rs) as [|r' l'] eqn:E; [|done]. exfalso.
    assert (r0 ∈ omap id rs) as Hin by (apply elem_of_list_omap; exists (Some r0); split; [by eapply elem_of_list_lookup_2|done]).
    rewrite E in Hin. by apply elem_of_nil in Hin.
  - clear. induction rs as [|o rs IH]; intros [|i] r Hi; try done.
    + cbn in Hi. injection Hi as ->. done.
    + cbn [take]. destruct o as [x|]; cbn; by apply IH.
  - done.
  - intros msg. eexists. split; [reflexivity|]. split; [by rewrite imap_length, map_length|].
    intros k r Hk. change (map msg ?l) with (msg <$> l). rewrite list_lookup_imap, list_lookup_fmap, Hk. cbn. by destruct k.
Qed.
Print Assumptions C57_numbers_partial.
Example C57_numbers_case : Forall2 (fun w r => validate bx_lib (Some (resolve bx_lib bx_one, w)) = Ok r) bx_list [None; Some (EInvalid 0); None].
Proof. repeat constructor. Qed.
