(** Which routes of a table without regexp segments some request reaches. *)
From Verif Require Import Base GoStr Strconv Pattern Tree GoStrFacts TreeSpec ListFacts TreeFacts TreeMatch TreeTop
  TreeOrder RoutingFacts LastingSpec Header Router RouterSpec Ctx TraceSpec Engine EngineSpec ServeTop ServeDispatch ParamSpec ServeParams.

(** a segment that is no literal of the table *)
Definition widest (l : list gostr) : nat := foldr (fun s n => max (length s) n) 0 l.
Definition fresh_seg (l : list gostr) : gostr := repeat "x"%char (S (widest l)).
Lemma widest_in s l : s ∈ l -> length s <= widest l.
Proof. unfold widest. induction 1 as [s l|s t l Hs IH]; cbn [foldr]; lia. Qed.
Lemma fresh_not_in l : fresh_seg l ∉ l.
Proof. intros H. apply widest_in in H. unfold fresh_seg in H. rewrite repeat_length in H. lia. Qed.
Lemma fresh_no_slash l : "/"%char ∉ fresh_seg l.
Proof. unfold fresh_seg. intros H. apply elem_of_list_In, repeat_spec in H. discriminate. Qed.

Section Generic.
Variable re_find : gostr -> gostr -> option (list gostr).
Variable f : gostr.
Notation accepts := (route_accepts re_find).

(** the path that fills every variable segment with f *)
Fixpoint generic (p : list pat) (n : nat) : list gostr :=
  match n with
  | 0 => []
  | S n => match p with
           | [] => f :: generic [] n
           | q :: p => match p_typ q with PStatic => p_raw q | _ => f end :: generic p n
           end
  end.
Lemma generic_length p n : length (generic p n) = n.
Proof. revert p. induction n as [|n IH]; intros p; [done|]. destruct p; cbn; by rewrite IH. Qed.
Lemma generic_no_slash p n : "/"%char ∉ f -> (forall q, q ∈ p -> "/"%char ∉ p_raw q) -> Forall (fun s => "/"%char ∉ s) (generic p n).
Proof.
  intros Hf. revert p. induction n as [|n IH]; intros p Hp; [constructor|]. destruct p as [|q p]; cbn [generic].
  - constructor; [done|]. apply IH. intros q Hq. by apply elem_of_nil in Hq.
  - constructor; [destruct (p_typ q); try done; apply Hp; left|]. apply IH. intros q' Hq. apply Hp. by right.
Qed.

Definition like (a b : list gostr) : Prop := Forall2 (fun x y => x = y \/ x = f) a b.
Lemma generic_nil_like ss : like (generic [] (length ss)) ss.
Proof. induction ss as [|s ss IH]; [constructor|]. constructor; [by right|done]. Qed.
Lemma generic_like p ss : (forall q, q ∈ p -> p_typ q <> PRegexp) -> accepts p ss -> like (generic p (length ss)) ss.
Proof.
  intros Hp H. induction H as [q s Hs|q s ss Ht Hne|q r s ss Hs Hr IH].
  - cbn. constructor; [|constructor]. unfold seg_accepts in Hs. destruct (p_typ q); auto.
  - cbn [length generic]. rewrite Ht. constructor; [by right|]. apply generic_nil_like.
  - cbn [length generic]. constructor.
    + unfold seg_accepts in Hs. destruct (p_typ q); auto.
    + apply IH. intros q' Hq. apply Hp. by right.
Qed.
Lemma generic_accepted p ss : (forall q, q ∈ p -> p_typ q <> PRegexp) -> accepts p ss -> accepts p (generic p (length ss)).
Proof.
  assert (Hsa : forall q, p_typ q <> PRegexp -> seg_accepts re_find q match p_typ q with PStatic => p_raw q | _ => f end).
  { intros q Hq. unfold seg_accepts. by destruct (p_typ q). }
  intros Hp H. induction H as [q s Hs|q s ss Ht Hne|q r s ss Hs Hr IH].
  - cbn. apply accepts_last, Hsa, Hp. left.
  - cbn [length generic]. rewrite Ht. destruct ss as [|t ss]; [done|]. by apply accepts_rest.
  - cbn [length generic]. apply accepts_next; [apply Hsa, Hp; left|]. apply IH. intros q' Hq. apply Hp. by right.
Qed.
(** what accepts the generic path accepts all paths like it *)
Lemma like_accepted q a b : (forall x, x ∈ q -> p_typ x <> PRegexp /\ p_raw x <> f) -> like a b -> accepts q a -> accepts q b.
Proof.
  assert (Hsa : forall x s t, p_typ x <> PRegexp -> p_raw x <> f -> s = t \/ s = f -> seg_accepts re_find x s -> seg_accepts re_find x t).
  { intros x s t H1 H2 Hst. unfold seg_accepts. destruct (p_typ x); [|done..]. intros ->. destruct Hst; congruence. }
  intros Hq Hl H. revert b Hl. induction H as [x s Hs|x s ss Ht Hne|x r s ss Hs Hr IH]; intros b Hl.
  - inversion Hl as [|? t ? b' Hst Hb]; subst. inversion Hb; subst. apply accepts_last. destruct (Hq x) as [H1 H2]; [left|]. by eapply Hsa.
  - inversion Hl as [|? t ? b' Hst Hb]; subst. apply accepts_rest; [done|]. intros ->. by inversion Hb.
  - inversion Hl as [|? t ? b' Hst Hb]; subst. destruct (Hq x) as [H1 H2]; [left|]. apply accepts_next; [by eapply Hsa|].
    apply IH; [|done]. intros y Hy. apply Hq. by right.
Qed.
End Generic.

Section Reach.
Variable re_ok : gostr -> bool.
Variable re_find : gostr -> gostr -> option (list gostr).

Lemma chosen_not_overshadowed tbl ss p : chosen re_find tbl ss p -> takes re_find (length ss) p /\ ~ overshadowed re_find tbl (length ss) p.
Proof.
  intros (Hin & Ha & Hb). split; [by exists ss|]. intros (q & Hq & Hne & Hc & Hbt).
  destruct (Hb q Hq (Hc ss eq_refl Ha) Hne) as [_ Hn]. done.
Qed.

(** every path of a request can be spelled *)
Definition spelled (ss : list gostr) : gostr := L "/" ++ join (L "/") ss ++ L "/".
Lemma spelled_segs ss : ss <> [] -> Forall (fun s => "/"%char ∉ s) ss -> path_segs (spelled ss) = ss.
Proof.
  intros Hne Hs. unfold path_segs, spelled. rewrite trim_prefix_app, trim_suffix_app. by apply split_join.
Qed.

(** a path that p wins, when nothing overshadows it *)
Lemma reach_path tbl n p :
  (forall r q, r ∈ tbl -> q ∈ r -> "/"%char ∉ p_raw q) -> no_regexp tbl -> p ∈ tbl -> takes re_find n p -> ~ overshadowed re_find tbl n p ->
  exists path, length (path_segs path) = n /\ route_accepts re_find p (path_segs path) /\
    forall q, q ∈ tbl -> q <> p -> route_accepts re_find q (path_segs path) -> ~ beats tbl n q p.
Proof.
  intros Hslash Hnr Hp (ss & <- & Ha) Hno.
  set (f := fresh_seg (map p_raw (concat tbl))).
  assert (Hf : forall r q, r ∈ tbl -> q ∈ r -> p_raw q <> f).
  { intros r q Hr Hq Heq. apply (fresh_not_in (map p_raw (concat tbl))). fold f. rewrite <- Heq. apply elem_of_list_fmap. exists q. split; [done|].
    apply elem_of_list_In, in_concat. exists r. split; by apply elem_of_list_In. }
  assert (Hg : path_segs (spelled (generic f p (length ss))) = generic f p (length ss)).
  { apply spelled_segs.
    - intros Heq. apply (f_equal length) in Heq. rewrite generic_length in Heq. destruct Ha; done.
    - apply generic_no_slash; [apply fresh_no_slash|]. intros q Hq. by eapply Hslash. }
  exists (spelled (generic f p (length ss))). rewrite Hg. rewrite generic_length. split; [done|]. split.
  { apply generic_accepted; [|done]. intros q Hq. by eapply Hnr. }
  intros q Hq Hne Haq Hb. apply Hno. exists q. split_and!; [done|done| |done].
  intros ss' Hlen Ha'. eapply (like_accepted re_find f); [| |exact Haq].
  - intros x Hx. split; [by apply (Hnr q)|by apply (Hf q)].
  - rewrite <- Hlen. apply (generic_like re_find); [|done]. intros x Hx. by apply (Hnr p).
Qed.

Lemma uri_route_slash u r q : uri_route re_ok u r -> q ∈ r -> "/"%char ∉ p_raw q.
Proof.
  unfold uri_route. intros Hr Hq. apply elem_of_list_lookup in Hq as (i & Hi).
  destruct (Forall2_lookup_r _ _ _ _ _ Hr Hi) as (s & Hs & Hp). rewrite (analyze_raw re_ok _ _ Hp).
  unfold uri_segs in Hs. apply elem_of_list_lookup_2 in Hs.
  assert (Hsk : forall l s, s ∈ skip_empty l -> s ∈ l).
  { clear. intros l. induction l as [l IH] using (induction_ltof1 _ length). unfold ltof in IH. intros s.
    destruct l as [|x l]; [done|]. destruct l as [|y l]; [by destruct x|].
    destruct x as [|c x].
    - destruct l as [|z l]; [cbn; intros ->%elem_of_list_singleton; right; left|].
      cbn [skip_empty]. intros [->|H]%elem_of_cons; [right; left|]. right. right. apply IH; [cbn; lia|done].
    - cbn [skip_empty]. intros [->|H]%elem_of_cons; [left|]. right. apply IH; [cbn; lia|done]. }
  apply Hsk in Hs. pose proof (split_byte_no_sep "/"%char (trim_suffix (L "/") u)) as Hn. rewrite Forall_forall in Hn. by apply Hn.
Qed.

Lemma tree_reached {H : Type} (us : list (gostr * list H)) T tbl i p :
  adds re_ok us = Ok T -> routes_of re_ok us tbl -> no_regexp tbl -> tbl !! i = Some p ->
  (exists path e ps, Match re_find (Some T) path = (Some e, ps) /\ e_id e = i) <->
  (forall j, j < i -> tbl !! j <> Some p) /\ exists n, takes re_find n p /\ ~ overshadowed re_find tbl n p.
Proof.
  intros HA Hro Hnr Hi. split.
  - intros (path & e & ps & HM & He). destruct (dispatch_priority _ re_ok re_find us T path HA tbl e ps Hro HM) as (r & Hr & Hfirst & Hb).
    subst i. assert (r = p) as -> by congruence. split; [done|]. exists (length (path_segs path)).
    destruct (dispatch_sound _ re_ok re_find us T path HA e ps HM) as (u & r & Hu & Hur & Ha).
    assert (r = p) as ->.
    { pose proof (Forall2_lookup_lr _ _ _ _ _ _ Hro Hu Hi) as Hur'. cbn in Hur'. by eapply uri_route_fun. }
    apply chosen_not_overshadowed. split; [by eapply elem_of_list_lookup_2|]. split; [done|]. intros q Hq Hqa Hne. by apply Hb.
  - intros (Hfirst & n & Ht & Hno).
    destruct (reach_path tbl n p) as (path & Hlen & Ha & Hb); try done.
    { intros r q Hr Hq. apply elem_of_list_lookup in Hr as (j & Hj). destruct (Forall2_lookup_r _ _ _ _ _ Hro Hj) as (u & _ & Hu).
      by eapply uri_route_slash. }
    { by eapply elem_of_list_lookup_2. }
    destruct (Forall2_lookup_r _ _ _ _ _ Hro Hi) as ([u hs] & Hu & Hup). cbn in Hup.
    destruct (dispatch_complete _ re_ok re_find us T path HA u hs p) as (e & ps & HM); [by eapply elem_of_list_lookup_2|done|done|].
    exists path, e, ps. split; [done|].
    destruct (dispatch_priority _ re_ok re_find us T path HA tbl e ps Hro HM) as (r & Hr & Hfirst' & Hb').
    destruct (decide (r = p)) as [->|Hne].
    + destruct (Nat.lt_trichotomy (e_id e) i) as [Hlt|[Heq|Hlt]]; [by destruct (Hfirst _ Hlt)|done|by destruct (Hfirst' _ Hlt)].
    + destruct (Hb' p) as [Hbt _]; [by eapply elem_of_list_lookup_2|done|done|]. rewrite Hlen in Hbt.
      exfalso. eapply (Hb r); [by eapply elem_of_list_lookup_2|done| |done].
      destruct (dispatch_sound _ re_ok re_find us T path HA e ps HM) as (u' & r' & Hu' & Hur & Ha').
      assert (r' = r) as ->; [|done].
      pose proof (Forall2_lookup_lr _ _ _ _ _ _ Hro Hu' Hr) as Hur'. cbn in Hur'. by eapply uri_route_fun.
Qed.
End Reach.

Section Engines.
Context {A V : Type}.
Variable re_ok : gostr -> bool.
Variable re_find : gostr -> gostr -> option (list gostr).
Variable sniff : gostr -> gostr.
Variable parse_form : bool -> request -> gostr * bool -> gmap gostr (list gostr) * bool * gostr.
Implicit Types e : engine A.

Lemma method_table_fun e m tbl tbl' : method_table re_ok e m tbl -> method_table re_ok e m tbl' -> tbl = tbl'.
Proof.
  unfold method_table. generalize (method_routes e m). intros l H. revert tbl'. induction H as [|v p l tbl Hp Hl IH]; intros tbl' H'.
  - by inversion H'.
  - inversion H' as [|? p' ? t' Hp' Ht']; subst. f_equal; [by eapply uri_route_fun|by apply IH].
Qed.
Lemma method_routes_in e m v : v ∈ method_routes e m <-> v ∈ routes e /\ rt_method v = m.
Proof. unfold method_routes. rewrite !elem_of_list_In, List.filter_In. by rewrite seqb_true. Qed.

Lemma route_reached ops r0 opts e m tbl i v p n :
  engine_of re_ok ops r0 opts e -> method_table re_ok e m tbl -> no_regexp tbl ->
  method_routes e m !! i = Some v -> tbl !! i = Some p -> (forall j, j < i -> tbl !! j <> Some p) ->
  takes re_find n p -> ~ overshadowed re_find tbl n p ->
  exists path, forall (code : handler A -> prog V) id x r body en px c',
    rq_method r = m -> rq_path r = path -> (forall n, ~ refused r n) -> (forall u, u ∈ routes e -> ~ verbatim re_ok e u r) ->
    ServeHTTP re_find sniff parse_form code e id x (arrive r body) = (en, px, c') ->
    turns code (rt_handlers v) (cn_log c') en.
Proof.
  intros He Ht Hnr Hv Hp Hfirst Htk Hno.
  destruct (reach_path re_find tbl n p) as (path & Hlen & Ha & Hb); try done.
  { intros r q Hr Hq. apply elem_of_list_lookup in Hr as (j & Hj). destruct (Forall2_lookup_r _ _ _ _ _ Ht Hj) as (u & _ & Hu).
    by eapply uri_route_slash. }
  { by eapply elem_of_list_lookup_2. }
  exists path. intros code id x r body en px c' Hm Hpath Hr Hver H.
  destruct (serve_best re_ok re_find sniff parse_form code _ _ _ _ _ _ _ _ _ _ _ He H Hr Hver) as [Hnone|(w & q & tbl' & Ht' & Hc & Hfw & Hturn)].
  { exfalso. assert (Hin : v ∈ method_routes e m) by (by eapply elem_of_list_lookup_2). apply method_routes_in in Hin as [Hin Hvm].
    apply (Hnone v Hin). split; [congruence|]. exists p. rewrite Hpath. split; [|done]. exact (Forall2_lookup_lr _ _ _ _ _ _ Ht Hv Hp). }
  rewrite Hm in *. assert (tbl' = tbl) as -> by (by eapply method_table_fun). rewrite Hpath in Hc.
  destruct Hc as (Hq & Hqa & Hqb). assert (q = p) as ->.
  { destruct (decide (q = p)) as [|Hne]; [done|]. exfalso. apply (Hb q Hq Hne Hqa). rewrite <- Hlen.
    apply Hqb; [by eapply elem_of_list_lookup_2|done|done]. }
  destruct Hfw as (j & Hw & Hj & Hfj). assert (j = i) as ->.
  { destruct (Nat.lt_trichotomy j i) as [Hlt|[Heq|Hlt]]; [by destruct (Hfirst _ Hlt)|done|by destruct (Hfj _ Hlt)]. }
  assert (w = v) as -> by congruence. done.
Qed.

Lemma route_unreached ops r0 opts e m tbl i p :
  engine_of re_ok ops r0 opts e -> method_table re_ok e m tbl -> tbl !! i = Some p ->
  ((exists j, j < i /\ tbl !! j = Some p) \/ forall n, takes re_find n p -> overshadowed re_find tbl n p) ->
  forall (code : handler A -> prog V) id x r body en px c',
    rq_method r = m -> (forall n, ~ refused r n) -> (forall u, u ∈ routes e -> ~ verbatim re_ok e u r) ->
    ServeHTTP re_find sniff parse_form code e id x (arrive r body) = (en, px, c') ->
    (forall v, v ∈ routes e -> ~ fits re_ok re_find v r) \/
    exists j w, j <> i /\ method_routes e m !! j = Some w /\ turns code (rt_handlers w) (cn_log c') en.
Proof.
  intros He Ht Hp Hsh code id x r body en px c' Hm Hr Hver H.
  destruct (serve_best re_ok re_find sniff parse_form code _ _ _ _ _ _ _ _ _ _ _ He H Hr Hver) as [Hnone|(w & q & tbl' & Ht' & Hc & Hfw & Hturn)]; [by left|].
  right. rewrite Hm in *. assert (tbl' = tbl) as -> by (by eapply method_table_fun).
  destruct Hfw as (j & Hw & Hj & Hfj). exists j, w. split_and!; [|done|done]. intros ->.
  assert (q = p) as -> by congruence. destruct Hsh as [(k & Hk & Hkp)|Hsh]; [by destruct (Hfj _ Hk)|].
  destruct (chosen_not_overshadowed re_find tbl _ _ Hc) as [Htk Hno]. by apply Hno, Hsh.
Qed.
End Engines.
