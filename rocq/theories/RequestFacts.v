(** Proofs about what handlers can read of the request. *)
From Verif Require Import Base GoStr GoStrFacts Strconv Tree Header Router Ctx CtxFacts TraceSpec Engine EngineSpec
  ServeFacts ServeProps ServeTop ServeDispatch Sim ServeMore ServePairs ServeThms Util Content HttpFacts BodySpec RequestSpec.
Local Open Scope Z_scope.

Section Inputs.
Context {A V : Type}.
Variable re_find : gostr -> gostr -> option (list gostr).
Variable sniff : gostr -> gostr.
Variable parse_form : bool -> request -> gostr * bool -> gmap gostr (list gostr) * bool * gostr.
Variable code : handler A -> prog V.
Implicit Types x : ctxobj A V.
Implicit Types c : conn V.

Local Notation inputs := (inputs (V:=V) parse_form).
Local Notation in_rule := (in_rule (V:=V) parse_form).

Lemma inputs_wire r body l w : Forall wire w -> inputs r body (l ++ w) = inputs r body l.
Proof.
  intros Hw. unfold RequestSpec.inputs. rewrite fold_left_app. generalize (fold_left (in_step parse_form r) l (body, None)).
  induction Hw as [|ev w Hev _ IH]; intros st; [done|]. simpl. rewrite IH. destruct st as [[] ?]. by destruct ev.
Qed.
Lemma inputs_snoc r body l ev : inputs r body (l ++ [ev]) = in_step parse_form r (inputs r body l) ev.
Proof. unfold RequestSpec.inputs. by rewrite fold_left_app. Qed.

Definition in_ok r body x c : Prop :=
  cn_req c = r /\ inputs r body (cn_log c) = (cn_body c, cn_form c) /\ (x_parsed x = true <-> cn_form c <> None).

Definition in_op (o : op V) : bool :=
  match o with ORequest | OBodyRead _ | OBodyReadAll | OBodyClose | OBodySet _ | OParseForm | OForm => true | _ => false end.
Lemma raw_WriteHeader_in n c o c' : raw_WriteHeader n c = (o, c') -> cn_body c' = cn_body c /\ cn_form c' = cn_form c.
Proof.
  unfold raw_WriteHeader. cbn zeta. destruct (rw_sent _); [by intros [= <- <-]|].
  destruct (valid_code n); by intros [= <- <-].
Qed.
Lemma raw_Write_in d c : cn_body (raw_Write d c) = cn_body c /\ cn_form (raw_Write d c) = cn_form c.
Proof.
  unfold raw_Write. cbn zeta. match goal with |- context [rw_sent (match ?y with _ => _ end)] => destruct y as [[n h]|] eqn:E end;
    cbn [rw_sent]; [rewrite E; by destruct (body_allowed n)|by destruct (body_allowed 200)].
Qed.
Lemma do_op_in o x c r x' c' : do_op sniff parse_form o x c = (r, (x', c')) -> in_op o = false ->
  cn_body c' = cn_body c /\ cn_form c' = cn_form c /\ x_parsed x' = x_parsed x.
Proof.
  destruct o; try discriminate; simpl; try (intros H _; inversion H; subst; by auto).
  - unfold ctx_WriteHeader. destruct (x_written x); [intros H; inversion H; by subst|].
    destruct (raw_WriteHeader _ _) as [o1 c1] eqn:E. apply raw_WriteHeader_in in E as [? ?]. intros Hx; inversion Hx; by subst.
  - unfold ctx_Write, ctx_WriteHeader. destruct (x_written x); simpl.
    + intros H; inversion H; subst. by destruct (raw_Write_in data c).
    + match goal with |- context [raw_WriteHeader 200 ?c0] => set (c2 := c0) end.
      assert (cn_body c2 = cn_body c /\ cn_form c2 = cn_form c) as [Hb Hf] by (unfold c2; by destruct (_ && _)).
      destruct (raw_WriteHeader 200 c2) as [o1 c1] eqn:E. apply raw_WriteHeader_in in E as [E1 E2].
      destruct o1; intros Hx; inversion Hx; subst; [pose proof (raw_Write_in data c1) as [-> ->]|]; rewrite E1, E2, Hb, Hf; done.
  - destruct (raw_WriteHeader _ _) as [o1 c1] eqn:E. apply raw_WriteHeader_in in E as [? ?]. intros Hx; inversion Hx; by subst.
  - intros H; inversion H; subst. by destruct (raw_Write_in data c).
  - destruct (x_end x) as [[? [rt|]]|]; intros H; inversion H; by subst.
  - destruct (x_params x); intros H; inversion H; by subst.
  - destruct (x_env x) as [m|]; [destruct (m !! name)|]; intros H; inversion H; by subst.
  - destruct (x_env x ≫= _); intros H; inversion H; by subst.
  - destruct (x_env x) as [m|]; intros H; inversion H; by subst.
Qed.

Lemma in_invariant r body : invariant (A:=A) sniff parse_form (fun _ => True)
  (fun x c => in_ok r body x c /\ hist (in_rule r body) (cn_log c))
  (fun x c => in_ok r body x c /\ hist (in_rule r body) (cn_log c)).
Proof.
  apply rule_invariant.
  - by intros l [].
  - intros x c ev Hev (H1 & H2 & H3). split; [done|]. split; [|done]. simpl. rewrite inputs_snoc, H2. destruct (cn_body c). by destruct ev.
  - done.
  - intros o x c a x' c' w _ (H1 & H2 & H3) H Hw Hl.
    assert (Hi : inputs r body (cn_log c ++ w) = (cn_body c, cn_form c)) by (by rewrite inputs_wire).
    unfold in_ok. rewrite Hl, inputs_snoc, Hi. unfold RequestSpec.in_rule. rewrite Hi. cbn [fst snd].
    pose proof (call_run _ _ _ _ _ _ _ _ H) as []. apply call_eq in H as (c1 & Hd & ->). cbn [log cn_body cn_form cn_req] in *.
    clear Hl. rewrite sr_req.
    destruct (in_op o) eqn:Ho.
    + destruct o; try discriminate Ho; simpl in Hd.
      1-5, 7: destruct (cn_body c) as [dat how] eqn:Eb; inversion Hd; subst; cbn; rewrite ?Eb; by try destruct how.
      destruct (cn_body c) as [data how] eqn:Eb. cbn [in_step fst snd]. destruct (x_parsed x) eqn:Hp.
      * inversion Hd; subst. destruct (cn_form c1) eqn:Hf; [|by destruct H3 as [H3 _]; specialize (H3 eq_refl)].
        by rewrite Hp, Eb.
      * assert (cn_form c = None) as Hf.
        { destruct (cn_form c) eqn:Hf; [|done]. destruct H3 as [_ H3]. discriminate H3. done. }
        rewrite Hf. rewrite H1 in Hd. change (bd_all (mkBody data how)) with (data, feed_ok how) in Hd. change (data, ends_well how) with (data, feed_ok how).
        destruct (parse_form (is_multipart r) r (data, feed_ok how)) as [[f ok] rest].
        destruct ok; inversion Hd; subst; cbn; (split; [done|]); [done|exists []; rewrite app_nil_r; by destruct (is_multipart _)].
    + apply do_op_in in Hd as (-> & -> & ->); [|done]. destruct (cn_body c) as [data how]. split; [|by destruct o]. split; [done|]. split; [|done].
      by destruct o.
Qed.

Lemma serve_inputs (e : engine A) id x r body en px c' :
  ServeHTTP re_find sniff parse_form code e id x (arrive r body) = (en, px, c') -> hist (in_rule r body) (cn_log c').
Proof.
  intros H. apply served in H as [(_ & n & ->)|(hs & ps & n & Hran)]; [by apply bare_hist|].
  destruct (ran_inv _ _ _ _ _ _ _ _ _ _ _ Hran _ _ _ (in_invariant r body)) as (x' & (H1 & H2) & H3).
  - intros h _. apply only_any.
  - split; [|apply hist_nil]. done.
  - done.
Qed.


Lemma taken_inputs r body l : hist (in_rule r body) l -> Forall (fun ev => ~ rebodies ev) l ->
  exists rest, fst (inputs r body l) = mkBody rest (bd_feed body) /\ bd_data body = concat (omap taken l) ++ rest.
Proof.
  induction l as [|ev l IH] using rev_ind; intros Hh Hr; [by destruct body; eexists|].
  apply hist_snoc in Hh as [Hh Hev]. apply Forall_app in Hr as [Hr Hre]. destruct (IH Hh Hr) as (rest & IH1 & IH2).
  rewrite inputs_snoc, omap_app, concat_app. cbn [omap list_omap concat].
  inversion Hre as [|? ? Hn _]; subst. unfold RequestSpec.in_rule in Hev. rewrite IH1 in Hev.
  destruct (inputs r body l) as [b form] eqn:Ei. cbn [fst] in IH1. subst b.
  assert (in_step parse_form r (mkBody rest (bd_feed body), form) ev = (mkBody rest (bd_feed body), form) -> taken ev = None ->
    exists rest', fst (in_step parse_form r (mkBody rest (bd_feed body), form) ev) = mkBody rest' (bd_feed body) /\
    bd_data body = (concat (omap taken l) ++ concat (match taken ev with Some y => [y] | None => [] end)) ++ rest') as Hsame.
  { intros -> ->. exists rest. cbn [concat]. by rewrite app_nil_r. }
  destruct ev as [| | |o a| |]; try (by apply Hsame).
  destruct o; try (by apply Hsame); try (by destruct Hn).
  - cbn in Hev. subst a. cbn [taken in_step fst]. eexists. split; [reflexivity|]. cbn [concat]. by rewrite app_nil_r, <- app_assoc, take_drop.
  - cbn in Hev. subst a. cbn [taken in_step fst]. eexists. split; [reflexivity|]. cbn [concat]. by rewrite !app_nil_r.
Qed.
Lemma hist_part {R : list (event V) -> event V -> Prop} l1 l2 : hist R (l1 ++ l2) -> hist R l1.
Proof. intros H k1 ev k2 ->. apply (H k1 ev (k2 ++ l2)). by rewrite <- app_assoc. Qed.

Lemma serve_body (e : engine A) id x r body en px c' l1 a l2 :
  ServeHTTP re_find sniff parse_form code e id x (arrive r body) = (en, px, c') ->
  cn_log c' = l1 ++ EvCall OBodyReadAll a :: l2 -> Forall (fun ev => ~ rebodies ev) l1 ->
  exists d, a = Norm (d, ends_well (bd_feed body)) /\ bd_data body = concat (omap taken l1) ++ d.
Proof.
  intros H Hl Hr. apply serve_inputs in H. assert (hist (in_rule r body) l1) as H1 by (rewrite Hl in H; by eapply hist_part).
  specialize (H _ _ _ Hl). destruct (taken_inputs r body l1 H1 Hr) as (rest & E1 & E2).
  unfold RequestSpec.in_rule in H. rewrite E1 in H. by exists rest.
Qed.

(** after Close *)
Lemma inputs_feed r body l : Forall (fun ev => ~ replaces ev) l -> bd_feed body <> FMem -> bd_feed (fst (inputs r body l)) <> FMem.
Proof.
  intros Hl Hb. unfold RequestSpec.inputs. assert (bd_feed (fst (body, None : option (gmap gostr (list gostr)))) <> FMem) as H by done.
  revert H. generalize (body, None : option (gmap gostr (list gostr))). induction Hl as [|ev l Hev _ IH]; intros [[data how] form] H; [done|].
  cbn [fold_left]. apply IH. destruct ev as [| | |o a| |]; try done. destruct o; try done; cbn; try (by destruct how); try (by destruct Hev).
  destruct form; [done|]. by destruct (parse_form _ _ _) as [[? ?] ?].
Qed.
Lemma inputs_closed r l : forall st, Forall (fun ev => ~ replaces ev) l -> Forall (fun ev => ~ parses ev) l -> fst st = mkBody [] FClosed ->
  fst (fold_left (in_step (V:=V) parse_form r) l st) = mkBody [] FClosed.
Proof.
  induction l as [|ev l IH]; intros [b form] H1 H2 E; [done|]. cbn [fst] in E. subst b. cbn [fold_left].
  inversion H1; inversion H2; subst. apply IH; try done. destruct ev as [| | |o a| |]; try done. destruct o; try done; cbn.
  by rewrite drop_nil.
Qed.
Lemma serve_closed (e : engine A) id x r body en px c' l1 o l2 a l3 :
  ServeHTTP re_find sniff parse_form code e id x (arrive r body) = (en, px, c') -> bd_feed body <> FMem ->
  cn_log c' = l1 ++ EvCall OBodyClose o :: l2 ++ EvCall OBodyReadAll a :: l3 ->
  Forall (fun ev => ~ replaces ev) (l1 ++ l2) -> Forall (fun ev => ~ parses ev) l2 -> a = Norm ([], false).
Proof.
  intros H Hb Hl Hr Hp. apply serve_inputs in H. apply Forall_app in Hr as [Hr1 Hr2].
  specialize (H (l1 ++ EvCall OBodyClose o :: l2) (EvCall OBodyReadAll a) l3). rewrite Hl, <- app_assoc in H. specialize (H eq_refl).
  unfold RequestSpec.in_rule, RequestSpec.inputs in H. rewrite fold_left_app in H. cbn [fold_left] in H.
  pose proof (inputs_feed r body l1 Hr1 Hb) as Hf. unfold RequestSpec.inputs in Hf.
  destruct (fold_left (in_step parse_form r) l1 (body, None)) as [[data how] form]. cbn [fst bd_feed] in Hf.
  rewrite inputs_closed in H; [done|done|done|]. by destruct how.
Qed.
End Inputs.

(** ** Header names *)
Lemma lower_upper a : lower_byte (upper_byte a) = lower_byte a.
Proof. destruct a as [[] [] [] [] [] [] [] []]; reflexivity. Qed.
Lemma lower_lower a : lower_byte (lower_byte a) = lower_byte a.
Proof. destruct a as [[] [] [] [] [] [] [] []]; reflexivity. Qed.
Lemma upper_lower a : upper_byte (lower_byte a) = upper_byte a.
Proof. destruct a as [[] [] [] [] [] [] [] []]; reflexivity. Qed.
Lemma lower_hyphen a : Ascii.eqb (lower_byte a) "-" = Ascii.eqb a "-".
Proof. destruct a as [[] [] [] [] [] [] [] []]; reflexivity. Qed.

Lemma canon_case_lower s : forall u, map lower_byte (canon_case u s) = map lower_byte s.
Proof. induction s as [|a s IH]; intros u; [done|]. cbn [canon_case map]. rewrite IH. destruct u; by rewrite ?lower_upper, ?lower_lower. Qed.
Lemma canon_case_of_lower s : forall u, canon_case u (map lower_byte s) = canon_case u s.
Proof.
  induction s as [|a s IH]; intros u; [done|]. cbn [canon_case map]. rewrite IH, lower_hyphen.
  destruct u; by rewrite ?upper_lower, ?lower_lower.
Qed.
Lemma token_char a : token_byte a = true <-> a ∈ tchars.
Proof.
  rewrite <- (bool_decide_spec (a ∈ tchars)). unfold Is_true.
  assert (token_byte a = bool_decide (a ∈ tchars)) as -> by (destruct a as [[] [] [] [] [] [] [] []]; reflexivity).
  by destruct (bool_decide (a ∈ tchars)).
Qed.
Lemma token_dec k : forallb token_byte k = true <-> is_token k.
Proof.
  rewrite forallb_forall. unfold is_token. rewrite Forall_forall. split.
  - intros H a Ha. apply token_char, H. by apply elem_of_list_In.
  - intros H a Ha. apply token_char, H. by apply elem_of_list_In.
Qed.
Lemma canon_token k : is_token k -> canon k = canon_case true k.
Proof. intros H. unfold canon. by rewrite (proj2 (token_dec k) H). Qed.
Lemma canon_same k k' : is_token k -> is_token k' -> canon k = canon k' <-> same_name k k'.
Proof.
  intros H H'. rewrite !canon_token by done. unfold same_name. split.
  - intros E. by rewrite <- (canon_case_lower k true), E, canon_case_lower.
  - intros E. by rewrite <- canon_case_of_lower, E, canon_case_of_lower.
Qed.

Global Instance same_name_dec k k' : Decision (same_name k k').
Proof. unfold same_name. apply _. Defined.
Lemma received_values lines : forall h k, is_token k -> Forall (fun kv => is_token (fst kv)) lines ->
  h_values (fold_left (fun h kv => h_add h (fst kv) (snd kv)) lines h) k =
  h_values h k ++ omap (fun kv => if decide (same_name (fst kv) k) then Some (snd kv) else None) lines.
Proof.
  induction lines as [|[k' v] lines IH]; intros h k Hk Hl; [by rewrite app_nil_r|].
  inversion Hl as [|? ? Hk' Hl']; subst. cbn [fst] in Hk'. cbn [fold_left fst snd omap list_omap]. rewrite IH by done.
  unfold h_add, h_values at 1. destruct (decide (same_name k' k)) as [E|E].
  - rewrite (proj2 (canon_same k' k Hk' Hk) E), lookup_insert. unfold h_values at 1. rewrite (proj2 (canon_same k' k Hk' Hk) E).
    rewrite <- app_assoc. done.
  - rewrite lookup_insert_ne; [done|]. intros Hc. by apply canon_same in Hc.
Qed.
Lemma received_get lines k v : is_token k -> Forall (fun kv => is_token (fst kv)) lines ->
  first_line k lines v -> h_get (received lines) k = v.
Proof.
  intros Hk Hl Hf. unfold h_get, received. rewrite received_values by done.
  assert (h_values ∅ k = []) as -> by (unfold h_values; by rewrite lookup_empty). cbn [app].
  clear Hk Hl. induction Hf as [|k' v lines E|k' v lines w E Hf IH]; [done| |]; cbn [omap list_omap fst snd].
  - by rewrite decide_True.
  - by rewrite decide_False.
Qed.
Lemma first_line_total k lines : exists v, first_line k lines v.
Proof.
  induction lines as [|[k' v] lines [w IH]]; [exists []; constructor|].
  destruct (decide (map lower_byte k' = map lower_byte k)) as [E|E]; [exists v|exists w]; by constructor.
Qed.

Lemma is_ajax (r : request) lines v : rq_header r = received lines -> Forall (fun kv => is_token (fst kv)) lines ->
  first_line (L "X-Requested-With") lines v -> IsAjax r = true <-> v = L "XMLHttpRequest".
Proof.
  intros Hr Hl Hf. unfold IsAjax. rewrite Hr, (received_get lines (L "X-Requested-With") v) by (done || by repeat constructor). apply seqb_true.
Qed.
Lemma is_websocket (r : request) lines v u : rq_header r = received lines -> Forall (fun kv => is_token (fst kv)) lines ->
  first_line (L "Connection") lines v -> first_line (L "Upgrade") lines u ->
  IsWebsocket r = true <-> same_name u (L "websocket") /\ exists a m b, v = a ++ m ++ b /\ same_name m (L "upgrade").
Proof.
  intros Hr Hl Hf Hu. unfold IsWebsocket. rewrite Hr, (received_get lines (L "Connection") v), (received_get lines (L "Upgrade") u) by (done || by repeat constructor).
  rewrite andb_true_iff, contains_true, seqb_true. unfold same_name.
  change (map lower_byte (L "websocket")) with (L "websocket"). change (map lower_byte (L "upgrade")) with (L "upgrade").
  split.
  - intros [(a & b & E) H2]. split; [done|].
    apply List.map_eq_app in E as (a' & w & -> & <- & E). apply List.map_eq_app in E as (m & b' & -> & E & <-).
    by exists a', m, b'.
  - intros [H2 (a & m & b & -> & H1)]. split; [|done]. exists (map lower_byte a), (map lower_byte b). by rewrite !map_app, H1.
Qed.

(** ** Truth values *)
Lemma existsb_in s l : existsb (seqb s) l = bool_decide (s ∈ l).
Proof.
  destruct (existsb (seqb s) l) eqn:E; symmetry.
  - apply bool_decide_eq_true. apply existsb_exists in E as (t & Hin & E). apply seqb_true in E as ->. by apply elem_of_list_In.
  - apply bool_decide_eq_false. intros Hin. apply elem_of_list_In in Hin. apply not_true_iff_false in E. apply E.
    apply existsb_exists. exists s. split; [done|apply seqb_refl].
Qed.
Lemma parse_bool_iff s : fst (parse_bool s) = true <-> yes s.
Proof.
  unfold parse_bool. rewrite !existsb_in. fold (yes s) (no s). case_bool_decide as H1; [done|].
  case_bool_decide; cbn [fst]; split; done.
Qed.
Lemma parse_bool_ok s : snd (parse_bool s) = true <-> yes s \/ no s.
Proof.
  unfold parse_bool. rewrite !existsb_in. fold (yes s) (no s). case_bool_decide as H1; [cbn [snd]; split; auto|].
  case_bool_decide as H2; cbn [snd]; split; auto; [discriminate|]. intros [?|?]; done.
Qed.

(** a request that means to upgrade, with one Connection line *)
Lemma first_line_mid k lines1 v lines2 : Forall (fun kv => ~ same_name (fst kv) k) lines1 ->
  first_line k (lines1 ++ (k, v) :: lines2) v.
Proof. induction lines1 as [|[k' w] l IH]; intros H; [by apply first_this|]. inversion H; subst. apply first_later; auto. Qed.
Lemma websocket_single r lines1 v lines2 : rq_header r = received (lines1 ++ (L "Connection", v) :: lines2) ->
  Forall (fun kv => is_token (fst kv)) (lines1 ++ (L "Connection", v) :: lines2) ->
  Forall (fun kv => ~ same_name (fst kv) (L "Connection")) (lines1 ++ lines2) ->
  has_element [(L "Connection", v)] (L "Connection") (L "upgrade") ->
  (exists u, first_line (L "Upgrade") (lines1 ++ (L "Connection", v) :: lines2) u /\ same_name u (L "websocket")) ->
  IsWebsocket r = true.
Proof.
  intros Hr Ht Hn (k' & v' & pre & s & post & t & Hin & Hk & Hs & (l & rr & E & Hl & Hrr) & Hel) (u & Hu & Hw).
  apply Forall_app in Hn as [Hn _].
  apply (is_websocket r _ v u Hr Ht (first_line_mid _ _ _ _ Hn) Hu). split; [done|].
  apply elem_of_list_singleton in Hin. injection Hin as -> ->.
  assert (exists a b, v = a ++ s ++ b) as (a & b & ->).
  { rewrite <- (join_split "," v). rewrite Hs. clear.
    induction pre as [|p pre IH].
    - destruct post; cbn [join app]; [exists [], []; by rewrite app_nil_r|]. eexists [], _. reflexivity.
    - destruct IH as (a & b & IH). exists (p ++ L "," ++ a), b. cbn [app join]. destruct (pre ++ s :: post) as [|y q] eqn:Ep; [by destruct pre|].
      rewrite IH, <- !app_assoc. done. }
  exists (a ++ l), t, (rr ++ b). split; [|done]. rewrite E, <- !app_assoc. done.
Qed.

Lemma protocol_of {A V} sniff parse_form next (k : gostr -> prog V) (x : ctxobj A V) (c : conn V) lines v :
  rq_header (cn_req c) = received lines -> Forall (fun kv => is_token (fst kv)) lines -> first_line (L "X-Forwarded-Proto") lines v ->
  exists s c', pexec sniff parse_form next (Protocol k) x c = pexec sniff parse_form next (k s) x c' /\
    cn_req c' = cn_req c /\ cn_rw c' = cn_rw c /\ cn_body c' = cn_body c /\ cn_form c' = cn_form c /\
    (v = L "http" \/ v = L "https" -> s = v) /\
    (v <> L "http" -> v <> L "https" -> s = if rq_tls (cn_req c) then L "https" else L "http").
Proof.
  intros Hr Ht Hf. unfold Protocol. cbn [pexec].
  change (call sniff parse_form ORequest x c) with (Norm (X:=request) (cn_req c), (x, log c (EvCall ORequest (Norm (cn_req c))))). cbn iota.
  rewrite Hr, (received_get lines HeaderXForwardedProto v) by (done || by repeat constructor). cbn zeta.
  destruct (seqb v (L "http") || seqb v (L "https")) eqn:E.
  - eexists v, _. split; [reflexivity|]. apply orb_true_iff in E. rewrite !seqb_true in E. split_and!; try done. intros; by destruct E.
  - apply orb_false_iff in E. rewrite !seqb_false in E. destruct E as [E1 E2]. destruct (rq_tls (cn_req c)).
    + eexists (L "https"), _. split; [reflexivity|]. split_and!; try done. by intros [?|?].
    + eexists (L "http"), _. split; [reflexivity|]. split_and!; try done. by intros [?|?].
Qed.
