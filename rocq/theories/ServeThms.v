(** Summary of what holds for requests to an engine, as used in PropEngine. *)
From Coq Require Import Sorted.
From Verif Require Import Base GoStr Strconv Pattern Tree GoStrFacts TreeSpec ListFacts TreeFacts TreeMatch TreeTop
  TreeOrder RoutingFacts Header PatternSpec PatternFacts Router RouterSpec RouterFacts RouterDump MethodFacts HandlerFacts RouterProps Variant Ctx
  CtxFacts TraceSpec Engine ServeFacts ServeProps EngineSpec ServeTop ServeDispatch Sim ServeMore ServePairs.
Local Open Scope Z_scope.

Lemma bodiless_ok n : body_allowed n = false <-> bodiless n.
Proof. unfold body_allowed, bodiless. rewrite negb_false_iff, !orb_true_iff, andb_true_iff, !Z.leb_le, !Z.eqb_eq. tauto. Qed.

Lemma code_ok n : valid_code n = true <-> 100 <= n <= 999.
Proof. unfold valid_code. by rewrite andb_true_iff, !Z.leb_le. Qed.

Section Thms.
Context {A V : Type}.
Variable re_ok : gostr -> bool.
Variable re_find : gostr -> gostr -> option (list gostr).
Variable sniff : gostr -> gostr.
Variable parse_form : bool -> request -> gostr * bool -> gmap gostr (list gostr) * bool * gostr.
Variable code : handler A -> prog V.
Implicit Types e : engine A.
Implicit Types l : list (event V).

Local Notation ServeHTTP := (ServeHTTP re_find sniff parse_form code).
Local Notation ran := (ran sniff parse_form code).
Local Notation fits := (fits (A:=A) re_ok re_find).
Local Notation same_pattern := (same_pattern (A:=A) re_ok).
Local Notation verbatim := (verbatim re_ok).
Local Notation literal := (literal (A:=A) re_ok).
Local Notation dispatched := (dispatched re_ok re_find).

(** a request whose handlers were run *)
Lemma dispatched_ran ops r0 opts e id x r body en px c' :
  engine_of re_ok ops r0 opts e -> ServeHTTP e id x (arrive r body) = (en, px, c') ->
  (exists n, en = EDone /\ c' = bare r body n /\
     (refused r n \/ (n = 404 /\ (forall k, ~ refused r k) /\ o_nofound (en_options e) = [] /\
        forall v, v ∈ routes e -> ~ fits v r /\ ~ verbatim e v r))) \/
  ((forall k, ~ refused r k) /\ exists hs ps n, dispatched e r hs /\ ran id hs ps n r body en c').
Proof.
  intros He H. destruct (serve_handled re_ok _ _ _ _ _ _ _ _ _ _ _ _ _ _ _ He H) as
    [n Hn|Hr Hno Hnf|ps Hr Hno Hnf|v w n ps Hr Hv Hw Hsame _ _ Hwhy Hh Hran].
  - left. exists n. split_and!; try done. by left.
  - left. exists 404. split_and!; try done. right. done.
  - right. split; [done|]. do 3 eexists. split; [by apply dis_nofound|done].
  - right. split; [done|]. exists (rt_handlers v), ps, (Some (n, Some w)). split; [|done].
    apply dis_route; [done| |done]. destruct Hwhy as [[? _]|(u & _ & (_ & ? & _) & [? _])]; congruence.
Qed.

Lemma serve_handlers ops r0 opts e id x r body en px c' :
  engine_of re_ok ops r0 opts e -> ServeHTTP e id x (arrive r body) = (en, px, c') ->
  starts (cn_log c') <> [] ->
  exists hs, dispatched e r hs /\ turns code hs (cn_log c') en.
Proof.
  intros He H Hs. destruct (dispatched_ran _ _ _ _ _ _ _ _ _ _ _ He H) as [(n & _ & -> & _)|(_ & hs & ps & n & Hd & Hran)]; [done|].
  exists hs. split; [done|]. by eapply ran_turns.
Qed.
Lemma serve_order ops r0 opts e id x r body en px c' :
  engine_of re_ok ops r0 opts e -> ServeHTTP e id x (arrive r body) = (en, px, c') ->
  starts (cn_log c') = [] \/
  exists hs, dispatched e r hs /\ StronglySorted lt (starts (cn_log c')) /\
    Forall (fun i => i < length hs)%nat (starts (cn_log c')).
Proof.
  intros He H. destruct (dispatched_ran _ _ _ _ _ _ _ _ _ _ _ He H) as [(n & _ & -> & _)|(_ & hs & ps & n & Hd & Hran)]; [by left|].
  right. exists hs. split; [done|]. by eapply ran_order.
Qed.
Lemma serve_stops e id x r body en px c' :
  ServeHTTP e id x (arrive r body) = (en, px, c') -> hist start_rule (cn_log c').
Proof.
  intros H. apply served in H as [(_ & n & ->)|(hs & ps & n & Hran)]; [by apply bare_hist|]. by eapply ran_start.
Qed.
Lemma serve_all ops r0 opts e id x r body en px c' :
  engine_of re_ok ops r0 opts e -> ServeHTTP e id x (arrive r body) = (en, px, c') ->
  starts (cn_log c') <> [] -> en = EDone -> ~ responded (cn_log c') ->
  exists hs, dispatched e r hs /\ starts (cn_log c') = seq 0 (length hs).
Proof.
  intros He H Hs Hen Hn. destruct (dispatched_ran _ _ _ _ _ _ _ _ _ _ _ He H) as [(n & _ & -> & _)|(_ & hs & ps & n & Hd & Hran)]; [done|].
  exists hs. split; [done|]. destruct (ran_gap sniff parse_form code _ _ _ _ _ _ _ _ Hran) as [_ Hg]. by apply Hg.
Qed.
Lemma serve_gap e id x r body en px c' :
  ServeHTTP e id x (arrive r body) = (en, px, c') -> hist no_gap (cn_log c').
Proof.
  intros H. apply served in H as [(_ & n & ->)|(hs & ps & n & Hran)]; [by apply bare_hist|]. by eapply ran_gap.
Qed.
Lemma serve_flags e id x r body en px c' :
  ServeHTTP e id x (arrive r body) = (en, px, c') -> hist flag_rule (cn_log c').
Proof.
  intros H. apply served in H as [(_ & n & ->)|(hs & ps & n & Hran)]; [by apply bare_hist|]. by eapply ran_flags.
Qed.
Lemma serve_env e id x r body en px c' :
  ServeHTTP e id x (arrive r body) = (en, px, c') -> hist env_rule (cn_log c').
Proof.
  intros H. apply served in H as [(_ & n & ->)|(hs & ps & n & Hran)]; [by apply bare_hist|]. by eapply ran_env.
Qed.

(** ** The response *)
Definition uses_ctx e : Prop :=
  (forall v h, v ∈ routes e -> h ∈ rt_handlers v -> only (fun o => ~ raw o) (code h)) /\
  (forall h, h ∈ o_nofound (en_options e) -> only (fun o => ~ raw o) (code h)).
Lemma serve_response ops r0 opts e id x r body en px c' :
  engine_of re_ok ops r0 opts e -> ServeHTTP e id x (arrive r body) = (en, px, c') ->
  starts (cn_log c') <> [] -> uses_ctx e -> response sniff (cn_log c') (cn_rw c').
Proof.
  intros He H Hs [H1 H2]. destruct (dispatched_ran _ _ _ _ _ _ _ _ _ _ _ He H) as [(n & _ & -> & _)|(_ & hs & ps & n & Hd & Hran)]; [done|].
  eapply ran_response; [exact Hran|]. intros h Hh. destruct Hd as [v Hv _ _|_ _]; [by eapply H1|by apply H2].
Qed.
Lemma first_code_at (l1 : list (event V)) ev l2 : first_code l1 = None -> first_code (l1 ++ ev :: l2) =
  match asks ev with Some n => Some n | None => first_code l2 end.
Proof.
  unfold first_code. rewrite omap_app. intros H. apply head_None in H. rewrite H. simpl. by destruct (asks ev).
Qed.
Lemma response_sends l w : response sniff l w ->
  sends l = match first_code l with Some n => [n] | None => [] end.
Proof.
  intros [(-> & -> & _)|(l1 & o & o1 & l2 & -> & Hf & Hm)]; [done|]. rewrite first_code_at by done.
  destruct o; try done; by destruct Hm as [-> _].
Qed.
Lemma response_sent l w n : response sniff l w -> first_code l = Some n -> valid_code n = true ->
  exists h, rw_sent w = Some (n, h).
Proof.
  intros [(-> & _)|(l1 & o & o1 & l2 & -> & Hf & Hm)]; [done|]. rewrite first_code_at by done.
  destruct o; try done; simpl; intros [= <-] Hv.
  - destruct Hm as [_ Hm]. destruct (Hm Hv) as (_ & -> & _). eauto.
  - destruct Hm as (_ & _ & -> & _). eauto.
Qed.
Lemma first_split (l1 l2 k1 k2 : list (event V)) a b : l1 ++ a :: l2 = k1 ++ b :: k2 ->
  first_code l1 = None -> first_code k1 = None -> asks a <> None -> asks b <> None -> l1 = k1 /\ a = b /\ l2 = k2.
Proof.
  revert k1. induction l1 as [|x l1 IH]; intros [|y k1] Heq Hl Hk Ha Hb; simpl in Heq.
  - by injection Heq as -> ->.
  - injection Heq as -> _. unfold first_code in Hk. simpl in Hk. by destruct (asks y).
  - injection Heq as -> _. unfold first_code in Hl. simpl in Hl. by destruct (asks b).
  - injection Heq as -> Heq. assert (Hn : forall l : list (event V), first_code (y :: l) = None -> first_code l = None).
    { unfold first_code. simpl. intros l. by destruct (asks y). }
    destruct (IH k1 Heq) as (-> & -> & ->); auto.
Qed.
Lemma response_write l w l1 d o1 l2 : response sniff l w -> l = l1 ++ EvCall (OWrite d) o1 :: l2 -> first_code l1 = None ->
  sends l = [200] /\ o1 = Norm tt /\ rw_sent w = Some (200, guess sniff d (headers_of l1)) /\ rw_body w = d ++ data_of l2.
Proof.
  intros [(Hf & _)|(k1 & o & o2 & k2 & Hl & Hk & Hm)] -> Hl1.
  - rewrite first_code_at in Hf by done. done.
  - assert (asks (EvCall o o2) <> None) as Ha by (by destruct o).
    apply first_split in Hl as (-> & Heq & ->); [|done..].
    assert (forall P : forall o, outcome (ans o) -> Prop, P o o2 -> P (OWrite d) o1) as Htr.
    { intros P HP. set (Q := fun ev : event V => match ev with EvCall o r => P o r | _ => False end).
      change (Q (EvCall (OWrite d) o1)). rewrite Heq. done. }
    apply (Htr (fun o o2 => match o return outcome (ans o) -> Prop with
      | OWriteHeader n => fun r => _ | OWrite d => fun r => _ | _ => fun _ => False end o2)) in Hm. done.
Qed.
Lemma response_header l w l1 n o1 l2 : response sniff l w -> l = l1 ++ EvCall (OWriteHeader n) o1 :: l2 -> first_code l1 = None ->
  valid_code n = true ->
  sends l = [n] /\ o1 = Norm tt /\ rw_sent w = Some (n, headers_of l1) /\ rw_body w = if body_allowed n then data_of l2 else [].
Proof.
  intros [(Hf & _)|(k1 & o & o2 & k2 & Hl & Hk & Hm)] -> Hl1 Hv.
  - rewrite first_code_at in Hf by done. done.
  - assert (asks (EvCall o o2) <> None) as Ha by (by destruct o).
    apply first_split in Hl as (-> & Heq & ->); [|done..].
    assert (forall P : forall o, outcome (ans o) -> Prop, P o o2 -> P (OWriteHeader n) o1) as Htr.
    { intros P HP. set (Q := fun ev : event V => match ev with EvCall o r => P o r | _ => False end).
      change (Q (EvCall (OWriteHeader n) o1)). rewrite Heq. done. }
    apply (Htr (fun o o2 => match o return outcome (ans o) -> Prop with
      | OWriteHeader n => fun r => _ | OWrite d => fun r => _ | _ => fun _ => False end o2)) in Hm.
    destruct Hm as [Hs Hm]. by destruct (Hm Hv) as (? & ? & ?).
Qed.

(** ** Refusals and unmatched requests *)
Lemma serve_refused e id x r body n : refused r n ->
  exists px, ServeHTTP e id x (arrive r body) = (EDone, px, bare r body n).
Proof.
  intros Hn. destruct (ServeHTTP e id x (arrive r body)) as [[en px] c'] eqn:H. exists px.
  apply serve_split in H as [(m & Hm & -> & ->)|(i & Hu & Hi & _)].
  - apply refusal_refused in Hn, Hm. congruence.
  - exfalso. eapply passes_not_refused; [exact Hu|exact Hi|exact Hn].
Qed.
Lemma serve_unmatched ops r0 opts e id x r body en px c' :
  engine_of re_ok ops r0 opts e -> ServeHTTP e id x (arrive r body) = (en, px, c') ->
  (forall n, ~ refused r n) -> (forall v, v ∈ routes e -> ~ fits v r /\ ~ verbatim e v r) ->
  ((forall us, WithNoFoundHandlers us ∉ opts) -> en = EDone /\ c' = bare r body 404) /\
  (forall o1 vs o2, opts = o1 ++ WithNoFoundHandlers vs :: o2 -> (forall us, WithNoFoundHandlers us ∉ o2) ->
     exists gs hs, Forall2 converts (befores (history ops) r0) gs /\ Forall2 converts vs hs /\ hs <> [] /\
       turns code (gs ++ hs) (cn_log c') en).
Proof.
  intros He H Hnr Hno. pose proof (engine_built _ _ _ _ _ He) as [_ Hb]. pose proof (bu_opts _ _ _ _ _ Hb) as Ho.
  assert (Hcase : (o_nofound (en_options e) = [] /\ en = EDone /\ c' = bare r body 404) \/
                  (o_nofound (en_options e) <> [] /\ turns code (o_nofound (en_options e)) (cn_log c') en)).
  { destruct (serve_handled re_ok _ _ _ _ _ _ _ _ _ _ _ _ _ _ _ He H) as
      [n Hn|Hr _ Hnf|ps Hr _ Hnf Hran|v w n ps Hr Hv Hw Hsame _ _ Hwhy Hh Hran].
    - by destruct (Hnr n).
    - left. done.
    - right. split; [done|]. by eapply ran_turns.
    - exfalso. destruct Hwhy as [Hf|(u & Hu & Hvb & _)]; [by destruct (Hno v Hv)|by destruct (Hno u Hu)]. }
  split.
  - intros Ha. apply (nofound_absent _ _ _ Ho) in Ha. by destruct Hcase as [(_ & ? & ?)|[? _]].
  - intros o1 vs o2 -> Ha. destruct (nofound_given _ _ _ _ _ Ho Ha) as (gs & hs & Hg & Hh & Hne & Hnf).
    exists gs, hs. assert (hs <> []) as Hne' by (by inversion Hh; subst).
    split_and!; [done..|]. rewrite Hnf in Hcase. destruct Hcase as [[Hc _]|[_ Hc]]; [|done].
    by apply app_eq_nil in Hc as [_ ?].
Qed.

(** ** FullPath *)
Lemma serve_path ops r0 opts e id x r body en px c' :
  engine_of re_ok ops r0 opts e -> ServeHTTP e id x (arrive r body) = (en, px, c') ->
  starts (cn_log c') <> [] ->
  (exists v w, v ∈ routes e /\ w ∈ routes e /\ same_pattern v w /\ first_of re_ok e v /\ last_of re_ok e w /\
     turns code (rt_handlers v) (cn_log c') en /\ hist (path_rule (rt_uri w)) (cn_log c')) \/
  ((forall v, v ∈ routes e -> ~ fits v r /\ ~ verbatim e v r) /\
   turns code (o_nofound (en_options e)) (cn_log c') en /\ hist (path_rule []) (cn_log c')).
Proof.
  intros He H Hs. destruct (serve_handled re_ok _ _ _ _ _ _ _ _ _ _ _ _ _ _ _ He H) as
    [n Hn|Hr _ Hnf|ps Hr Hno Hnf Hran|v w n ps Hr Hv Hw Hsame Hfi Hla Hwhy Hh Hran]; [by subst c'|by subst c'| |].
  - right. split_and!; [done|by eapply ran_turns|by eapply ran_path].
  - left. exists v, w. split_and!; try done; [by eapply ran_turns|by eapply ran_path].
Qed.
Lemma serve_path_unique ops r0 opts e id x r body en px c' :
  engine_of re_ok ops r0 opts e -> ServeHTTP e id x (arrive r body) = (en, px, c') ->
  starts (cn_log c') <> [] ->
  (forall v w, v ∈ routes e -> w ∈ routes e -> same_pattern v w -> v = w) ->
  (exists v, v ∈ routes e /\ turns code (rt_handlers v) (cn_log c') en /\ hist (path_rule (rt_uri v)) (cn_log c')) \/
  ((forall v, v ∈ routes e -> ~ fits v r /\ ~ verbatim e v r) /\
   turns code (o_nofound (en_options e)) (cn_log c') en /\ hist (path_rule []) (cn_log c')).
Proof.
  intros He H Hs Hu. destruct (serve_path _ _ _ _ _ _ _ _ _ _ _ He H Hs) as [(v & w & Hv & Hw & Hsame & _ & _ & Ht & Hp)|?]; [|by right].
  left. exists v. rewrite (Hu v w) in * by done. done.
Qed.

(** ** Context values *)
Lemma stored_app (l1 l2 : list (event V)) n : stored (l1 ++ l2) n = match stored l2 n with Some v => Some v | None => stored l1 n end.
Proof.
  unfold stored. rewrite omap_app. destruct (omap (stores n) l2) as [|a k _] using rev_ind.
  - by rewrite app_nil_r.
  - by rewrite app_assoc, !last_snoc.
Qed.
Definition assigns (n : gostr) (ev : event V) : Prop :=
  match ev with EvCall (OEnvPut n' _) _ => n' = n | _ => False end.
Lemma kept l n v l1 l2 : hist env_rule l -> l = l1 ++ EvCall (OSet n v) (Norm tt) :: l2 ->
  Forall (fun ev => ~ assigns n ev) l2 -> stored l n = Some v.
Proof.
  revert l l2. intros l l2. revert l. induction l2 as [|ev l2 IH] using rev_ind; intros l Hh -> Hl2.
  - rewrite stored_app. unfold stored at 1. simpl. by rewrite decide_True.
  - change (l1 ++ EvCall (OSet n v) (Norm tt) :: l2 ++ [ev]) with (l1 ++ (EvCall (OSet n v) (Norm tt) :: l2) ++ [ev]) in *.
    rewrite app_assoc in *. apply hist_snoc in Hh as [Hh Hev]. apply Forall_app in Hl2 as [Hl2 Hne]. inversion Hne; subst.
    rewrite stored_snoc. rewrite (IH _ Hh eq_refl Hl2) in *.
    destruct ev as [| | |o a| |]; try done. destruct o; try done; simpl in *.
    + destruct a as [a|a]; [|done]. destruct (decide (name = n)) as [->|]; [|done].
      rewrite (IH _ Hh eq_refl Hl2) in Hev. discriminate Hev.
    + destruct a as [a|a]; [|done]. by rewrite decide_False.
Qed.
Lemma write_once (l : list (event V)) n v l1 l2 : hist env_rule l -> l = l1 ++ EvCall (OSet n v) (Norm tt) :: l2 ->
  forall k o a k', l2 = k ++ EvCall o a :: k' -> Forall (fun ev => ~ assigns n ev) k ->
  match o return outcome (ans o) -> Prop with
  | OGet n' => fun a => n' = n -> a = Norm v
  | OGetMaybe n' => fun a => n' = n -> a = Norm (Some v)
  | OSet n' _ => fun a => n' = n -> a = Throw (Some (L "double Environ: " ++ n))
  | _ => fun _ => True
  end a.
Proof.
  intros Hh -> k o a k' -> Hk.
  assert (Hs : stored (l1 ++ EvCall (OSet n v) (Norm tt) :: k) n = Some v).
  { eapply kept; [|reflexivity|done]. intros a1 ev a2 Heq. eapply Hh with (l2 := a2 ++ EvCall o a :: k').
    rewrite app_comm_cons, app_assoc, Heq. by rewrite <- app_assoc. }
  assert (Hr : env_rule (l1 ++ EvCall (OSet n v) (Norm tt) :: k) (EvCall o a)).
  { eapply Hh with (l2 := k'). by rewrite <- app_assoc. }
  destruct o; try done; simpl in *; intros ->; rewrite Hs in Hr; done.
Qed.
End Thms.

(** ** Consequences for replies *)
Section More.
Context {A V : Type}.
Variable re_ok : gostr -> bool.
Variable re_find : gostr -> gostr -> option (list gostr).
Variable sniff : gostr -> gostr.
Variable parse_form : bool -> request -> gostr * bool -> gmap gostr (list gostr) * bool * gostr.
Variable code : handler A -> prog V.
Implicit Types e : engine A.

Lemma reply_serve e id x r body en px c' :
  ServeHTTP re_find sniff parse_form code e id x (arrive r body) = (en, px, c') ->
  reply re_find sniff parse_form code e id x r body = (en, c').
Proof. unfold reply. by intros ->. Qed.

Lemma sole_turns ops r0 opts e v id x r body en px c' :
  engine_of re_ok ops r0 opts e -> v ∈ routes e -> (forall n, ~ refused r n) -> fits re_ok re_find v r ->
  (forall w, w ∈ routes e -> fits re_ok re_find w r \/ verbatim re_ok e w r -> w = v) ->
  ServeHTTP re_find sniff parse_form code e id x (arrive r body) = (en, px, c') ->
  turns code (rt_handlers v) (cn_log c') en /\ hist (path_rule (rt_uri v)) (cn_log c').
Proof.
  intros He Hv Hnr Hf Hs H. apply reply_serve in H.
  destruct (sole_reached re_ok re_find sniff parse_form code _ _ _ _ v id x r body He Hv Hnr Hf Hs) as (n & ps & Hr).
  rewrite H in Hr. symmetry in Hr. apply runc_ran in Hr. split; [by eapply ran_turns|by eapply ran_path].
Qed.
Lemma literal_turns ops r0 opts e v id x r body en px c' :
  engine_of re_ok ops r0 opts e -> v ∈ routes e -> (forall n, ~ refused r n) -> literal re_ok v ->
  rt_method v = rq_method r -> path_segs (rq_path r) = uri_segs (rt_variant v) ->
  (forall w, w ∈ routes e -> same_pattern re_ok v w \/ verbatim re_ok e w r -> w = v) ->
  ServeHTTP re_find sniff parse_form code e id x (arrive r body) = (en, px, c') ->
  turns code (rt_handlers v) (cn_log c') en /\ hist (path_rule (rt_uri v)) (cn_log c').
Proof.
  intros He Hv Hnr Hf Hm Hp Hs H. apply reply_serve in H.
  destruct (literal_reached re_ok re_find sniff parse_form code _ _ _ _ v id x r body He Hv Hnr Hf Hm Hp) as (n & ps & Hr).
  { intros w Hw ?. apply Hs; auto. }
  { intros w Hw ?. apply Hs; auto. }
  rewrite H in Hr. symmetry in Hr. apply runc_ran in Hr. split; [by eapply ran_turns|by eapply ran_path].
Qed.
(** a later route with the same pattern is not used *)
Lemma shadowed ops r0 opts e id x r body en px c' :
  engine_of re_ok ops r0 opts e ->
  ServeHTTP re_find sniff parse_form code e id x (arrive r body) = (en, px, c') ->
  (en = EDone /\ starts (cn_log c') = []) \/
  (turns code (o_nofound (en_options e)) (cn_log c') en) \/
  exists v, v ∈ routes e /\ first_of re_ok e v /\ turns code (rt_handlers v) (cn_log c') en.
Proof.
  intros He H. destruct (serve_handled re_ok _ _ _ _ _ _ _ _ _ _ _ _ _ _ _ He H) as
    [n Hn -> ->|Hr _ Hnf -> ->|ps Hr Hno Hnf Hran|v w n ps Hr Hv Hw Hsame Hfi Hla Hwhy Hh Hran]; [by left|by left|..].
  - right. left. by eapply ran_turns.
  - right. right. exists v. split_and!; [done|done|by eapply ran_turns].
Qed.

Lemma first_status ops r0 opts e id x r body en px c' :
  engine_of re_ok ops r0 opts e ->
  ServeHTTP re_find sniff parse_form code e id x (arrive r body) = (en, px, c') ->
  starts (cn_log c') <> [] -> uses_ctx code e ->
  sends (cn_log c') = match first_code (cn_log c') with Some n => [n] | None => [] end /\
  forall n, first_code (cn_log c') = Some n -> 100 <= n <= 999 -> exists h, rw_sent (cn_rw c') = Some (n, h).
Proof.
  intros He H Hs Hu. pose proof (serve_response re_ok re_find sniff parse_form code _ _ _ _ _ _ _ _ _ _ _ He H Hs Hu) as Hr.
  split; [by eapply response_sends|]. intros n Hn Hv. eapply response_sent; [done|done|by apply code_ok].
Qed.
Lemma explicit_header ops r0 opts e id x r body en px c' l1 n o1 l2 :
  engine_of re_ok ops r0 opts e ->
  ServeHTTP re_find sniff parse_form code e id x (arrive r body) = (en, px, c') ->
  starts (cn_log c') <> [] -> uses_ctx code e ->
  cn_log c' = l1 ++ EvCall (OWriteHeader n) o1 :: l2 -> first_code l1 = None -> 100 <= n <= 999 ->
  sends (cn_log c') = [n] /\ o1 = Norm tt /\ rw_sent (cn_rw c') = Some (n, headers_of l1) /\
  (bodiless n -> rw_body (cn_rw c') = []) /\ (~ bodiless n -> rw_body (cn_rw c') = data_of l2).
Proof.
  intros He H Hs Hu Hl Hf Hv. pose proof (serve_response re_ok re_find sniff parse_form code _ _ _ _ _ _ _ _ _ _ _ He H Hs Hu) as Hr.
  destruct (response_header sniff _ _ _ _ _ _ Hr Hl Hf (proj2 (code_ok n) Hv)) as (H1 & H2 & H3 & H4). split_and!; [done..| |]; rewrite H4; intros Hb.
  - by rewrite (proj2 (bodiless_ok n) Hb).
  - destruct (body_allowed n) eqn:E; [done|]. by apply bodiless_ok in E.
Qed.
Lemma implicit_header ops r0 opts e id x r body en px c' l1 d o1 l2 :
  engine_of re_ok ops r0 opts e ->
  ServeHTTP re_find sniff parse_form code e id x (arrive r body) = (en, px, c') ->
  starts (cn_log c') <> [] -> uses_ctx code e ->
  cn_log c' = l1 ++ EvCall (OWrite d) o1 :: l2 -> first_code l1 = None ->
  sends (cn_log c') = [200] /\ o1 = Norm tt /\
  rw_sent (cn_rw c') = Some (200, guess sniff d (headers_of l1)) /\
  rw_body (cn_rw c') = d ++ data_of l2.
Proof.
  intros He H Hs Hu. pose proof (serve_response re_ok re_find sniff parse_form code _ _ _ _ _ _ _ _ _ _ _ He H Hs Hu) as Hr.
  by eapply response_write.
Qed.
Lemma serve_rest ops r0 opts e id x r body en px c' :
  engine_of re_ok ops r0 opts e ->
  ServeHTTP re_find sniff parse_form code e id x (arrive r body) = (en, px, c') ->
  (forall n, ~ refused r n) ->
  (exists hs, dispatched re_ok re_find e r hs /\ turns code hs (cn_log c') en) \/
  (o_nofound (en_options e) = [] /\ (forall v, v ∈ routes e -> ~ fits re_ok re_find v r /\ ~ verbatim re_ok e v r) /\
   en = EDone /\ c' = bare r body 404).
Proof.
  intros He H Hnr. destruct (dispatched_ran re_ok re_find sniff parse_form code _ _ _ _ _ _ _ _ _ _ _ He H)
    as [(n & -> & -> & [Hn|(-> & _ & Hnf & Hno)])|(_ & hs & ps & n & Hd & Hran)].
  - by destruct (Hnr n).
  - right. done.
  - left. exists hs. split; [done|]. by eapply ran_turns.
Qed.
Lemma serve_write_once e id x r body en px c' n v l1 l2 :
  ServeHTTP re_find sniff parse_form code e id x (arrive r body) = (en, px, c') ->
  cn_log c' = l1 ++ EvCall (OSet n v) (Norm tt) :: l2 ->
  forall k o a k', l2 = k ++ EvCall o a :: k' -> Forall (fun ev => ~ assigns n ev) k ->
  match o return outcome (ans o) -> Prop with
  | OGet n' => fun a => n' = n -> a = Norm v
  | OGetMaybe n' => fun a => n' = n -> a = Norm (Some v)
  | OSet n' _ => fun a => n' = n -> a = Throw (Some (L "double Environ: " ++ n))
  | _ => fun _ => True
  end a.
Proof. intros H. apply serve_env in H. eapply write_once. done. Qed.
End More.

Lemma serve_invoked {A V : Type} re_ok re_find sniff parse_form (water_code : A -> prog V) http_code ops r0 opts e id x r body en px c' :
  engine_of re_ok ops r0 opts e ->
  ServeHTTP re_find sniff parse_form (invoke water_code http_code) e id x (arrive r body) = (en, px, c') ->
  starts (cn_log c') <> [] ->
  exists hs, dispatched re_ok re_find e r hs /\ turns (invoke water_code http_code) hs (cn_log c') en.
Proof. intros He H Hs. by eapply serve_handlers. Qed.
