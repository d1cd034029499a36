(** Handler() on slices in memory makes the engine that Handler makes on lists. *)
From Verif Require Import Base GoStr Strconv Pattern Tree Router RouterTry Slices SliceSpec SliceMem SliceFacts.

Section Handler.
Context {A : Type}.
Variable spare : nat -> nat -> nat.
Implicit Types st : sstate A.
Implicit Types mh : mem (handler A).
Implicit Types mi : mem (ival A).

(** the results correspond *)
Definition same {X Y} (P : X -> Y -> Prop) (a : res X) (b : res Y) : Prop :=
  match a, b with
  | Ok x, Ok y => P x y
  | Panic m, Panic n => m = n
  | Diverge, Diverge => True
  | _, _ => False
  end.
Lemma same_bind {X Y X' Y'} (P : X -> Y -> Prop) (Q : X' -> Y' -> Prop) a b f g :
  same P a b -> (forall x y, P x y -> same Q (f x) (g y)) -> same Q (let! x := a in f x) (let! y := b in g y).
Proof. intros H HQ. destruct a, b; try done. by apply HQ. Qed.

(** a slice of a new array *)
Definition fresh {T} (m0 m : mem T) (s : slice) : Prop := own false m s /\ (s_cap s = 0 \/ length m0 <= s_arr s).

Lemma prepend_spec m0 mi before hs b : extends m0 mi -> own b m0 before -> fresh m0 mi hs ->
  exists m' hs', prepend spare mi before hs = (m', hs') /\ extends m0 m' /\ fresh m0 m' hs' /\
    sread m' hs' = sread m0 before ++ sread mi hs.
Proof.
  intros He Hb [Ho Hf]. unfold prepend. destruct (s_len before =? 0) eqn:El; cbn [negb].
  - apply Nat.eqb_eq in El. exists mi, hs. rewrite (read_empty m0 before El). done.
  - destruct (smake INil mi (s_len before)) as [m1 tmp] eqn:Em.
    assert (E1 : extends mi m1) by (unfold smake in Em; injection Em as <- <-; apply ext_app).
    assert (Er : sread m1 before = sread m0 before) by (eapply ext_read; [eapply ext_trans; done|done]).
    assert (Hl : length (sread m1 before) = s_len before) by (rewrite Er; by eapply read_len).
    destruct (make_copy_spec INil m0 mi _ _ _ _ He Hl Em) as (H1 & H2 & H3 & H4 & H5 & H6).
    set (m2 := scopy m1 tmp (sread m1 before)) in *.
    destruct (sappend INil spare m2 tmp (sread m2 hs)) as [m' hs'] eqn:Ea.
    destruct (append_ext INil spare m0 m2 tmp _ m' hs' (ext_trans _ _ _ He H2) H3 H5 Ea) as (G1 & G2 & G3 & G4).
    exists m', hs'. split; [done|]. split; [done|]. split; [done|]. rewrite G4, H4, Er. f_equal. by eapply ext_read.
Qed.

Lemma climb_same st (I : Inv st) : forall fuel mi tmp ps hs, extends (st_i st) mi -> fresh (st_i st) mi hs ->
  same (fun x y => x.1 = y.1 /\ extends (st_i st) x.2.1 /\ sread x.2.1 x.2.2 = y.2)
    (sclimb spare fuel (st_rs st) mi tmp ps hs) (climb fuel (abs st) tmp ps (sread mi hs)).
Proof.
  induction fuel as [|fuel IH]; intros mi tmp ps hs He Hf; [done|]. cbn [sclimb climb].
  rewrite abs_lookup. destruct (st_rs st !! tmp) as [t|] eqn:Et; [|done]. cbn [fmap option_fmap option_map].
  destruct (inv_own _ I _ _ Et) as (Og & Ob & Oh & _).
  cbn [abs_router r_pattern r_handlers r_befores r_gbefores r_parent].
  assert (exists m1 h1, (if negb (s_len (sr_handlers t) =? 0) then sappend INil spare mi hs (sread mi (sr_handlers t)) else (mi, hs)) = (m1, h1) /\
    extends (st_i st) m1 /\ fresh (st_i st) m1 h1 /\ sread m1 h1 = sread mi hs ++ sread (st_i st) (sr_handlers t)) as (m1 & h1 & -> & He1 & Hf1 & Er1).
  { destruct (s_len (sr_handlers t) =? 0) eqn:El; cbn [negb].
    - apply Nat.eqb_eq in El. exists mi, hs. rewrite (read_empty (st_i st) _ El), app_nil_r. done.
    - destruct Hf as [Ho Hn]. destruct (sappend INil spare mi hs (sread mi (sr_handlers t))) as [m1 h1] eqn:Ea.
      destruct (append_ext INil spare _ _ _ _ _ _ He Ho Hn Ea) as (G1 & G2 & G3 & G4). exists m1, h1. split; [done|]. split; [done|]. split; [done|].
      rewrite G4. f_equal. by eapply ext_read. }
  destruct (prepend_spec _ _ _ _ _ He1 Ob Hf1) as (m2 & h2 & -> & He2 & Hf2 & Er2).
  destruct (prepend_spec _ _ _ _ _ He2 Og Hf2) as (m3 & h3 & -> & He3 & Hf3 & Er3).
  rewrite <- Er1, <- Er2, <- Er3. destruct (sr_parent t) as [p|]; [by apply IH|]. done.
Qed.

Lemma newHandlers_same mh vs :
  same (fun x y => extends mh x.1 /\ own false x.1 x.2 /\ sread x.1 x.2 = y) (snewHandlers mh vs) (newHandlers vs).
Proof.
  unfold snewHandlers. destruct (newHandlers vs) as [hs| |]; cbn [rbind same]; [|done|done].
  cbn [fst snd]. split; [apply ext_app|]. split.
  - split; [done|]. right. eexists. cbn [s_arr s_off s_cap]. rewrite list_lookup_middle by done. done.
  - unfold sread. cbn [s_arr s_off s_len]. rewrite list_lookup_middle by done. cbn [a_cells]. rewrite drop_0. by apply take_ge.
Qed.

Lemma getRoute_same st (I : Inv st) mi mh r : extends (st_i st) mi ->
  same (fun x y => extends (st_i st) x.1.1 /\ extends mh x.1.2 /\ own false x.1.2 (srt_handlers x.2) /\ abs_route x.1.2 x.2 = y)
    (sgetRoute spare (st_rs st) mi mh r) (getRoute (abs st) r).
Proof.
  intros He. unfold sgetRoute, getRoute. rewrite abs_length.
  eapply same_bind. { rewrite <- (read_empty mi s_nil) by done. apply (climb_same st I (S (length (st_rs st))) mi r [] s_nil He). split; [apply own_nil|by left]. }
  intros [ps [mi1 hs]] [ps' l]. cbn [fst snd]. intros (<- & He1 & <-).
  eapply same_bind; [apply newHandlers_same|]. intros [mh1 h] l. cbn [fst snd]. intros (G1 & G2 & <-).
  rewrite abs_lookup. destruct (st_rs st !! r) as [x|]; [|done]. cbn [fmap option_fmap option_map].
  pose proof (read_len _ _ _ G2) as Hl. destruct (sread mh1 h) as [|z zs] eqn:Es; cbn in Hl; rewrite <- Hl; cbn [Nat.eqb]; [done|].
  cbn [same fst snd srt_handlers]. split; [done|]. split; [done|]. split; [done|]. unfold abs_route. cbn. by rewrite Es.
Qed.

(** ** The store *)
Definition smap (l : list (route A)) : gmap (gostr * gostr) (route A) :=
  fold_left (fun m rt => <[(rt_method rt, rt_uri rt) := rt]> m) l ∅.
Lemma smap_snoc l rt : smap (l ++ [rt]) = <[(rt_method rt, rt_uri rt) := rt]> (smap l).
Proof. unfold smap. by rewrite fold_left_app. Qed.
Lemma smap_lookup l k : (exists v, smap l !! k = Some v) <-> exists rt, In rt l /\ (rt_method rt, rt_uri rt) = k.
Proof.
  induction l as [|rt l IH] using rev_ind.
  - split; [|by intros (? & [] & _)]. intros [v H]. unfold smap in H. cbn in H. by rewrite lookup_empty in H.
  - rewrite smap_snoc. setoid_rewrite in_app_iff. destruct (decide ((rt_method rt, rt_uri rt) = k)) as [E|E].
    + rewrite E, lookup_insert. split; [|by eauto]. intros _. exists rt. split; [right; by left|done].
    + rewrite lookup_insert_ne by done. rewrite IH. split.
      * intros (q & H1 & H2). exists q. split; [by left|done].
      * intros (q & [H1|[<-|[]]] & H2); [by exists q|done].
Qed.
Definition stored mh (l : list sroute) (rs : routeStore A) : Prop :=
  Forall (fun rt => own false mh (srt_handlers rt)) l /\
  rs_slice rs = map (abs_route mh) l /\ rs_map rs = smap (map (abs_route mh) l).

Lemma route_ext mh mh' rt : extends mh mh' -> own false mh (srt_handlers rt) -> abs_route mh' rt = abs_route mh rt.
Proof. intros He Ho. unfold abs_route. f_equal. by eapply ext_read. Qed.
Lemma routes_ext mh mh' l : extends mh mh' -> Forall (fun rt => own false mh (srt_handlers rt)) l -> map (abs_route mh') l = map (abs_route mh) l.
Proof. intros He. induction 1 as [|rt l H _ IH]; [done|]. cbn [map]. f_equal; [by apply route_ext|done]. Qed.
Lemma stored_ext mh mh' l rs : extends mh mh' -> stored mh l rs -> stored mh' l rs.
Proof.
  intros He (H1 & H2 & H3). unfold stored. rewrite (routes_ext _ _ _ He H1). split; [|done].
  eapply Forall_impl; [done|]. intros rt. by apply ext_own.
Qed.

Lemma add_same mh l rs rt : stored mh l rs -> own false mh (srt_handlers rt) ->
  same (fun x y => stored mh x y) (srs_add l rt) (rs_add rs (abs_route mh rt)).
Proof.
  intros (H1 & H2 & H3) Ho. unfold srs_add, rs_add. cbn [abs_route rt_method rt_uri].
  destruct (seqb (srt_method rt) []); [done|].
  rewrite H3.
  destruct (existsb (fun q => seqb (srt_method q) (srt_method rt) && seqb (srt_uri q) (srt_uri rt)) l) eqn:Ee.
  - apply existsb_exists in Ee as (q & Hq & Hm%andb_true_iff). destruct Hm as [Hm Hu].
    apply seqb_true in Hm, Hu.
    assert (exists v, smap (map (abs_route mh) l) !! (srt_method rt, srt_uri rt) = Some v) as [v ->]; [|done].
    apply smap_lookup. exists (abs_route mh q). split; [by apply in_map|]. cbn. congruence.
  - destruct (smap (map (abs_route mh) l) !! (srt_method rt, srt_uri rt)) as [v|] eqn:Es.
    + exfalso. destruct (proj1 (smap_lookup (map (abs_route mh) l) (srt_method rt, srt_uri rt))) as (x & Hx & Hk); [by eauto|].
      apply in_map_iff in Hx as (q & <- & Hq). cbn in Hk. injection Hk as Hm Hu.
      assert (existsb (fun q => seqb (srt_method q) (srt_method rt) && seqb (srt_uri q) (srt_uri rt)) l = true); [|congruence].
      apply existsb_exists. exists q. split; [done|]. apply andb_true_iff. split; by apply seqb_true.
    + cbn [same]. split; [apply Forall_app; split; [done|by constructor]|]. cbn [rs_slice rs_map].
      rewrite map_app. cbn [map]. split; [by rewrite H2|]. rewrite smap_snoc. done.
Qed.

Lemma dump_same st (I : Inv st) : forall fuel mi mh r l rs, extends (st_i st) mi -> stored mh l rs ->
  same (fun x y => extends (st_i st) x.1.1 /\ extends mh x.1.2 /\ stored x.1.2 x.2 y)
    (sdumpRoute spare fuel (st_rs st) (st_r st) mi mh r l) (dumpRoute fuel (abs st) r rs).
Proof.
  induction fuel as [|fuel IH]; intros mi mh r l rs He Hs; [done|]. cbn [sdumpRoute dumpRoute].
  rewrite abs_lookup. destruct (st_rs st !! r) as [x|]; [|done]. cbn [fmap option_fmap option_map abs_router r_sub].
  destruct (sread (st_r st) (sr_sub x)) as [|v0 vs0].
  - eapply same_bind; [by apply getRoute_same|]. intros [[mi1 mh1] rt] y. cbn [fst snd]. intros (G1 & G2 & G3 & <-).
    assert (E : rs_add rs (abs_route mh1 rt) = let! y := rs_add rs (abs_route mh1 rt) in Ok y) by (by destruct (rs_add _ _)). rewrite E.
    eapply same_bind; [apply add_same; [by eapply stored_ext|done]|]. intros l1 y Hy. cbn [same fst snd]. done.
  - assert (G : forall vs mi mh l rs, extends (st_i st) mi -> stored mh l rs ->
      same (fun x y => extends (st_i st) x.1.1 /\ extends mh x.1.2 /\ stored x.1.2 x.2 y)
        ((fix go (vs : list nat) (mi : mem (ival A)) (mh : mem (handler A)) (l : list sroute) {struct vs}
                 : res (mem (ival A) * mem (handler A) * list sroute) :=
                 match vs with
                 | [] => Ok (mi, mh, l)
                 | v :: vs' =>
                     let! (ms, l) := sdumpRoute spare fuel (st_rs st) (st_r st) mi mh v l in
                     let '(mi, mh) := ms in go vs' mi mh l
                 end) vs mi mh l)
        ((fix go (l : list nat) (rs : routeStore A) {struct l} : res (routeStore A) :=
                 match l with
                 | [] => Ok rs
                 | v :: l' => let! rs := dumpRoute fuel (abs st) v rs in go l' rs
                 end) vs rs)); [|by apply (G (v0 :: vs0))].
    clear mi mh l rs He Hs. intros vs.
    induction vs as [|v vs IHv]; intros mi mh l rs He Hs; [done|].
    eapply same_bind; [by apply IH|]. intros [[mi1 mh1] l1] rs1. cbn [fst snd]. intros (G1 & G2 & G3).
    specialize (IHv mi1 mh1 l1 rs1 G1 G3).
    match goal with |- same _ ?a ?b => destruct a as [[[mi2 mh2] l2]| |], b as [rs2| |] end; try done.
    cbn [same fst snd] in *. destruct IHv as (F1 & F2 & F3). split; [done|]. split; [by eapply ext_trans|done].
Qed.

(** ** Options *)
Definition opt_ok st (f : sopt) : Prop :=
  match f with SWithNoFoundHandlers s => client_slice (st_i st) s = true | _ => True end.
Definition abs_options mh (o : soptions) : options A := mkOptions (so_static o) (sread mh (so_nofound o)) (so_maxmem o).
Lemma opt_same st mh o f : opt_ok st f -> own false mh (so_nofound o) ->
  same (fun x y => extends mh x.1 /\ own false x.1 (so_nofound x.2) /\ abs_options x.1 x.2 = y)
    (sapply_opt (st_i st) mh o f) (apply_opt (abs_options mh o) (abs_opt st f)).
Proof.
  intros Hf Ho. destruct f as [b|s|n]; cbn [sapply_opt abs_opt apply_opt]; [done| |done].
  cbn in Hf. apply client_own in Hf. pose proof (read_len _ _ _ Hf) as Hl.
  destruct (sread (st_i st) s) as [|v vs] eqn:Es; cbn in Hl; rewrite <- Hl; cbn [Nat.eqb]; [done|].
  eapply same_bind; [apply newHandlers_same|]. intros [mh1 h] y. cbn [fst snd]. intros (G1 & G2 & <-). done.
Qed.
Lemma opts_same st fs : Forall (opt_ok st) fs -> forall mh o, own false mh (so_nofound o) ->
  same (fun x y => extends mh x.1 /\ own false x.1 (so_nofound x.2) /\ abs_options x.1 x.2 = y)
    (sapply_opts (st_i st) mh o fs) (apply_opts (abs_options mh o) (map (abs_opt st) fs)).
Proof.
  induction 1 as [|f fs Hf _ IH]; intros mh o Ho; cbn [sapply_opts map apply_opts]; [done|].
  eapply same_bind; [by apply opt_same|]. intros [mh1 o1] y. cbn [fst snd]. intros (G1 & G2 & <-).
  specialize (IH mh1 o1 G2).
  match goal with |- same _ ?a ?b => destruct a as [[mh2 o2]| |], b as [y2| |] end; try done.
  cbn [same fst snd] in *. destruct IH as (F1 & F2 & F3). split; [by eapply ext_trans|done].
Qed.

(** ** Handler *)
Definition held st (e : sengine) : Prop :=
  own false (st_h st) (so_nofound (se_options e)) /\ Forall (fun rt => own false (st_h st) (srt_handlers rt)) (se_routes e).
Definition grows st st' : Prop :=
  st_rs st' = st_rs st /\ extends (st_i st) (st_i st') /\ extends (st_h st) (st_h st') /\ st_r st' = st_r st /\ st_hit st' = st_hit st.

Variable re_ok : gostr -> bool.
Local Notation engine_at := (engine_at re_ok).
Lemma engine_ext st st' e : held st e -> extends (st_h st) (st_h st') -> engine_at st' e = engine_at st e.
Proof.
  intros [H1 H2] He. unfold Slices.engine_at. rewrite (routes_ext _ _ _ He H2).
  by rewrite (ext_read _ _ _ _ He H1).
Qed.
Lemma held_ext st st' e : held st e -> extends (st_h st) (st_h st') -> held st' e.
Proof. intros [H1 H2] He. split; [by eapply ext_own|]. eapply Forall_impl; [done|]. intros rt. by apply ext_own. Qed.
Lemma grows_inv st st' : grows st st' -> Inv st -> Inv st' /\ abs st' = abs st.
Proof.
  intros (E1 & E2 & E3 & E4 & E5) [Io Is Ix]. split.
  - split; rewrite E1; [|done|done]. intros i x Hx. destruct (Io _ _ Hx) as (? & ? & ? & ?). rewrite E4.
    split_and!; try done; by eapply ext_own.
  - apply list_eq. intros i. rewrite !abs_lookup, E1. destruct (st_rs st !! i) as [x|] eqn:Ex; [|done]. cbn. f_equal.
    destruct (Io _ _ Ex) as (? & ? & ? & ?). unfold abs_router. rewrite E4. f_equal; by eapply ext_read.
Qed.

Definition part1 hp r opts : res (options A * routeStore A) :=
  let! x := deref hp r in
  if negb (IsParent x) then Panic (L "sub router not allowed: Handler()")
  else
    let! o := apply_opts (mkOptions false [] 0%Z) opts in
    let! o :=
      (if negb (length (o_nofound o) =? 0) && negb (length (r_gbefores x) =? 0) then
         let! g := newHandlers (r_gbefores x) in
         Ok (mkOptions (o_static o) (g ++ o_nofound o) (o_maxmem o))
       else Ok o) in
    let! rs := dumpRoute (S (length hp)) hp r newRouteStore in
    Ok (o, rs).
Lemma Handler_part1 hp r opts z : (Handler re_ok hp r opts z).1 =
  let! (o, rs) := part1 hp r opts in
  let! slice := check_uris (rs_slice rs) in
  let! ms := buildTree re_ok (o_static o) no_routers slice in
  Ok (mkEngine o r ms (mkStore (rs_map rs) slice)).
Proof.
  unfold Handler, part1. destruct (deref hp r) as [x| |]; cbn [rbind]; [|done|done].
  destruct (negb (IsParent x)); [done|]. destruct (apply_opts _ _) as [o| |]; cbn [rbind]; [|done|done].
  destruct (if negb (length (o_nofound o) =? 0) && _ then _ else _) as [o'| |]; cbn [rbind]; [|done|done].
  destruct (dumpRoute _ _ _ _) as [rs| |]; cbn [rbind]; [|done|done].
  by destruct (check_uris _).
Qed.

Lemma nofound_same st mh o g : own false (st_i st) g -> own false mh (so_nofound o) ->
  same (fun x y => extends mh x.1 /\ own false x.1 (so_nofound x.2) /\ abs_options x.1 x.2 = y)
    (if negb (s_len (so_nofound o) =? 0) && negb (s_len g =? 0) then
       let! (mh, g') := snewHandlers mh (sread (st_i st) g) in
       let gs := sread mh g' in
       match gs with
       | [] => Panic []
       | z :: _ =>
           let '(mh, tmp) := smake z mh (s_len g) in
           let mh := scopy mh tmp gs in
           let '(mh, tmp) := sappend z spare mh tmp (sread mh (so_nofound o)) in
           Ok (mh, mkSO (so_static o) tmp (so_maxmem o))
       end
     else Ok (mh, o))
    (if negb (length (o_nofound (abs_options mh o)) =? 0) && negb (length (sread (st_i st) g) =? 0) then
       let! g := newHandlers (sread (st_i st) g) in
       Ok (mkOptions (o_static (abs_options mh o)) (g ++ o_nofound (abs_options mh o)) (o_maxmem (abs_options mh o)))
     else Ok (abs_options mh o)).
Proof.
  intros Hg Ho. cbn [abs_options o_nofound o_static o_maxmem]. rewrite (read_len _ _ _ Hg), (read_len _ _ _ Ho).
  destruct (negb (s_len (so_nofound o) =? 0) && negb (s_len g =? 0)) eqn:Ec; [|done].
  apply andb_true_iff in Ec as [_ Ec]. apply negb_true_iff, Nat.eqb_neq in Ec.
  assert (Hlen : forall hs, newHandlers (sread (st_i st) g) = Ok hs -> length hs = s_len g).
  { rewrite <- (read_len _ _ _ Hg). generalize (sread (st_i st) g). clear. intros l.
    induction l as [|v l IH]; intros hs; cbn [newHandlers]; [by intros [= <-]|].
    destruct (newHandler v); [|done|done]. cbn [rbind]. destruct (newHandlers l) as [hs'| |]; [|done|done]. cbn [rbind].
    intros [= <-]. cbn. f_equal. by apply IH. }
  pose proof (newHandlers_same mh (sread (st_i st) g)) as Hn.
  destruct (snewHandlers mh (sread (st_i st) g)) as [[mh1 g']| |], (newHandlers (sread (st_i st) g)) as [hs| |]; try done.
  cbn [same fst snd rbind] in *. destruct Hn as (G1 & G2 & G3). specialize (Hlen _ eq_refl).
  destruct hs as [|z zs]; [by cbn in Hlen|]. rewrite G3.
  destruct (smake z mh1 (s_len g)) as [m1 tmp] eqn:Em.
  destruct (make_copy_spec z mh mh1 _ _ _ _ G1 Hlen Em) as (H1 & H2 & H3 & H4 & H5 & H6).
  set (m2 := scopy m1 tmp (z :: zs)) in *.
  destruct (sappend z spare m2 tmp (sread m2 (so_nofound o))) as [m3 t3] eqn:Ea.
  assert (E2 : extends mh m2) by (eapply ext_trans; done).
  destruct (append_ext z spare mh m2 tmp _ _ _ E2 H3 H5 Ea) as (F1 & F2 & F3 & F4).
  cbn [same fst snd so_nofound]. split; [done|]. split; [done|]. unfold abs_options. cbn [so_static so_nofound so_maxmem]. f_equal.
  rewrite F4, H4. f_equal. by eapply ext_read.
Qed.

Lemma sHandler_same st r opts : Inv st -> Forall (opt_ok st) opts ->
  same (fun x y => grows st x.1 /\ held x.1 x.2 /\ se_root x.2 = r /\ abs_options (st_h x.1) (se_options x.2) = y.1 /\
                   stored (st_h x.1) (se_routes x.2) y.2)
    (sHandler spare st r opts) (part1 (abs st) r (map (abs_opt st) opts)).
Proof.
  intros I Ho. unfold sHandler, part1, deref. rewrite abs_lookup.
  destruct (st_rs st !! r) as [x|] eqn:Ex; [|done]. cbn [fmap option_fmap option_map abs_router r_leaf].
  destruct (sr_leaf x); [done|]. cbn [rbind]. unfold IsParent. cbn [abs_router r_parent r_gbefores].
  destruct (sr_parent x); [done|]. cbn [negb].
  destruct (inv_own _ I _ _ Ex) as (Og & _).
  eapply same_bind. { rewrite <- (read_empty (st_h st) s_nil eq_refl). apply (opts_same st opts Ho (st_h st) (mkSO false s_nil 0%Z)). apply own_nil. }
  intros [mh1 o1] y. cbn [fst snd]. intros (G1 & G2 & <-).
  eapply same_bind; [by apply nofound_same|]. intros [mh2 o2] y. cbn [fst snd]. intros (F1 & F2 & <-).
  rewrite abs_length.
  eapply same_bind.
  { apply (dump_same st I (S (length (st_rs st))) (st_i st) mh2 r [] newRouteStore (ext_refl _)). split; [done|]. done. }
  intros [[mi mh3] l] rs. cbn [fst snd]. intros (D1 & D2 & D3). cbn [same fst snd].
  split. { unfold grows. cbn. split_and!; try done. eapply ext_trans; [done|]. by eapply ext_trans. }
  split. { split; cbn; [by eapply ext_own|apply D3]. }
  split; [done|]. split; [|done]. cbn. unfold abs_options. f_equal. by eapply ext_read.
Qed.

Lemma handler_engine st r opts z : Inv st -> Forall (opt_ok st) opts ->
  (let! (st', e) := sHandler spare st r opts in engine_at st' e) = (Handler re_ok (abs st) r (map (abs_opt st) opts) z).1.
Proof.
  intros I Ho. rewrite Handler_part1. pose proof (sHandler_same st r opts I Ho) as H.
  destruct (sHandler spare st r opts) as [[st' e]| |], (part1 (abs st) r (map (abs_opt st) opts)) as [[o rs]| |]; try done.
  2:{ cbn in H. by subst. }
  cbn [same fst snd rbind] in *. destruct H as (_ & _ & Hr & <- & (H1 & H2 & H3)).
  unfold Slices.engine_at. fold (smap (map (abs_route (st_h st')) (se_routes e))). rewrite <- H3, <- H2.
  cbn [abs_options o_static]. unfold abs_options. rewrite Hr. done.
Qed.
End Handler.
