(** Routing: the lemmas behind PropRouting.v. *)
From Verif Require Import Base GoStr Strconv Pattern PatternSpec PatternFacts Tree GoStrFacts
  TreeSpec ListFacts TreeFacts TreeMatch TreeTop TreeOrder TreeParams.

Section Routing.
Variable H : Type.
Variable re_ok : gostr -> bool.
Variable re_find : gostr -> gostr -> option (list gostr).
Variable us : list (gostr * list H).
Variable T : node H.
Variable path : gostr.
Hypothesis Hadds : adds re_ok us = Ok T.

Lemma routes_exist : exists tbl, routes_of re_ok us tbl.
Proof. destruct (adds_rep re_ok re_find us T Hadds) as (tbl & Hro & _). by exists tbl. Qed.

Lemma routes_lookup tbl j u hs r :
  routes_of re_ok us tbl -> us !! j = Some (u, hs) -> tbl !! j = Some r -> uri_route re_ok u r.
Proof.
  intros Hro Hu Hr. by apply (Forall2_lookup_lr _ _ _ _ _ _ Hro Hu) in Hr.
Qed.

Lemma dispatch_sound e ps :
  Match re_find (Some T) path = (Some e, ps) ->
  exists u r, us !! e_id e = Some (u, e_handlers e) /\ uri_route re_ok u r /\
              route_accepts re_find r (path_segs path).
Proof.
  intros Hm. destruct routes_exist as (tbl & Hro).
  destruct (lookup_ok re_ok re_find us T tbl path _ _ Hadds Hro Hm)
    as (m & -> & j & u & r & Hu & <- & Hr & _ & Ha & _).
  exists u, r. split_and!; [done| |done]. by eapply routes_lookup.
Qed.

Lemma dispatch_complete u hs r :
  (u, hs) ∈ us -> uri_route re_ok u r -> route_accepts re_find r (path_segs path) ->
  exists e ps, Match re_find (Some T) path = (Some e, ps).
Proof.
  intros Hin Hu Ha. destruct routes_exist as (tbl & Hro).
  destruct (Match re_find (Some T) path) as [[e|] ps] eqn:Hm; [by eauto|]. exfalso.
  destruct (lookup_ok re_ok re_find us T tbl path _ _ Hadds Hro Hm) as (m & -> & Hno & _).
  apply elem_of_list_lookup in Hin as (j & Hj).
  destruct (Forall2_lookup_l _ _ _ _ _ Hro Hj) as (r' & Hr' & Hur). simpl in Hur.
  assert (r' = r) as ->.
  { unfold uri_route in *. clear -Hu Hur. revert Hu Hur. generalize (uri_segs u). intros l Hu. revert r'.
    induction Hu as [|s p l r Hp Hl IH]; intros r' Hur; inversion Hur; subst; [done|].
    f_equal; [congruence|]. by apply IH. }
  apply (Hno r); [|done]. by apply elem_of_list_lookup_2 in Hr'.
Qed.

Lemma dispatch_priority tbl e ps :
  routes_of re_ok us tbl ->
  Match re_find (Some T) path = (Some e, ps) ->
  exists r, tbl !! e_id e = Some r /\
    (forall j, j < e_id e -> tbl !! j <> Some r) /\
    forall r', r' ∈ tbl -> route_accepts re_find r' (path_segs path) -> r' <> r ->
      beats tbl (length (path_segs path)) r r' /\ ~ beats tbl (length (path_segs path)) r' r.
Proof.
  intros Hro Hm.
  destruct (lookup_ok re_ok re_find us T tbl path _ _ Hadds Hro Hm)
    as (m & -> & j & u & r & Hu & <- & Hr & Hmin & Ha & Hb & _).
  exists r. split_and!; [done|done|]. intros r' Hin Ha' Hne.
  destruct (Hb r' Hin Ha') as [?|Hbt]; [done|]. split; [done|]. by apply beats_asym.
Qed.

Lemma params_left tbl e ps :
  routes_of re_ok us tbl ->
  Match re_find (Some T) path = (Some e, ps) ->
  exists r m, tbl !! e_id e = Some r /\ ps = Some m /\
    forall k,
      m !! k = (list_to_map (route_binds re_find 0 r (path_segs path)) : Params) !! k \/
      exists v, m !! k = Some v /\ left_behind re_find tbl (path_segs path) r k v.
Proof.
  intros Hro Hm.
  destruct (lookup_ok re_ok re_find us T tbl path _ _ Hadds Hro Hm)
    as (m & -> & j & u & r & Hu & <- & Hr & Hmin & Ha & Hb & Hp).
  by exists r, m.
Qed.

Lemma params_exact tbl e ps :
  routes_of re_ok us tbl -> no_inner_regexp tbl ->
  Match re_find (Some T) path = (Some e, ps) ->
  exists r m, tbl !! e_id e = Some r /\ ps = Some m /\
    (forall k, is_Some (m !! k) <-> k ∈ route_names 0 r) /\
    (NoDup (route_names 0 r) -> forall k v, m !! k = Some v <-> bound_by re_find 0 r (path_segs path) k v).
Proof.
  intros Hro Hno Hm.
  destruct (lookup_ok re_ok re_find us T tbl path _ _ Hadds Hro Hm)
    as (m & -> & j & u & r & Hu & <- & Hr & Hmin & Ha & Hb & Hp).
  exists r, m. split_and!; [done|done| |].
  - intros k. destruct (Hp k) as [->|(v & _ & Hlb)]; [by apply binds_dom|].
    by apply no_left_behind in Hlb.
  - intros Hnd k v. destruct (Hp k) as [->|(v' & _ & Hlb)]; [by apply binds_lookup|].
    by apply no_left_behind in Hlb.
Qed.

(** the same-kind part of the priority *)
Lemma same_kind_order tbl e ps c p1 t1 p2 t2 :
  routes_of re_ok us tbl ->
  Match re_find (Some T) path = (Some e, ps) ->
  tbl !! e_id e = Some (c ++ p1 :: t1) ->
  c ++ p2 :: t2 ∈ tbl -> route_accepts re_find (c ++ p2 :: t2) (path_segs path) ->
  p1 <> p2 -> p_typ p1 = p_typ p2 ->
  (t1 <> [] -> t2 <> [] -> opened_before tbl (c ++ [p1]) (c ++ [p2])) /\
  (t1 = [] -> t2 = [] -> length c + 1 = length (path_segs path) ->
     listed_before tbl (c ++ [p1]) (c ++ [p2])) /\
  (t1 = [] -> t2 = [] -> length c + 1 <> length (path_segs path) ->
     p_typ p1 = PMatchAll /\ listed_before tbl (c ++ [p2]) (c ++ [p1])).
Proof.
  intros Hro Hm Hr Hin Ha Hne Ht.
  destruct (dispatch_priority tbl e ps Hro Hm) as (r & Hr' & _ & Hb).
  rewrite Hr in Hr'. inversion Hr'; subst r. clear Hr'.
  destruct (Hb _ Hin Ha) as [Hbt _].
  { intros Heq. apply app_inv_head in Heq. congruence. }
  apply beats_at in Hbt; [|done]. unfold kind_lt in Hbt. rewrite Ht in Hbt.
  destruct Hbt as [(T1 & T2 & [?|[_ Ho]])|[(T1 & T2 & Hn & [?|[_ Ho]])|[(T1 & T2 & Hn & K1 & K2 & Hl)|(T1 & T2 & Hn & K2)]]];
    try lia; (split_and!; intros; try done; try lia; try congruence).
  split; [congruence|done].
Qed.

End Routing.

Lemma slash_insensitive H (re_find : gostr -> gostr -> option (list gostr)) (T : option (node H)) p :
  (forall r, p <> "/"%char :: r) -> (forall r, p <> r ++ ["/"%char]) ->
  Match re_find T (["/"%char] ++ p) = Match re_find T p /\
  Match re_find T (p ++ ["/"%char]) = Match re_find T p /\
  Match re_find T (["/"%char] ++ p ++ ["/"%char]) = Match re_find T p.
Proof.
  intros H1 H2. destruct T as [T|]; [|done]. rewrite !Match_eq.
  assert (Hp : trim_prefix (L "/") p = p).
  { destruct (trim_prefix1_cases "/" p) as [(r & -> & _)|[_ ?]]; [exfalso; by apply (H1 r)|done]. }
  assert (Hs : trim_suffix (L "/") p = p).
  { destruct (trim_suffix1_cases "/" p) as [(r & -> & _)|[_ ?]]; [exfalso; by apply (H2 r)|done]. }
  assert (E1 : path_segs (["/"%char] ++ p) = path_segs p).
  { unfold path_segs. change (L "/") with ["/"%char] in *. rewrite trim_prefix_app, Hp. done. }
  assert (E2 : path_segs (p ++ ["/"%char]) = path_segs p).
  { unfold path_segs. change (L "/") with ["/"%char] in *. destruct p as [|a p]; [done|].
    assert (trim_prefix ["/"%char] ((a :: p) ++ ["/"%char]) = (a :: p) ++ ["/"%char]) as ->.
    { destruct (trim_prefix1_cases "/" ((a :: p) ++ ["/"%char])) as [(r & Hr & _)|[_ ?]]; [|done].
      inversion Hr; subst. exfalso. by apply (H1 p). }
    by rewrite trim_suffix_app, Hp, Hs. }
  assert (E3 : path_segs (["/"%char] ++ p ++ ["/"%char]) = path_segs p).
  { unfold path_segs. change (L "/") with ["/"%char] in *.
    by rewrite trim_prefix_app, trim_suffix_app, Hp, Hs. }
  by rewrite E1, E2, E3.
Qed.


(** regexp patterns without groups *)
Lemma trim_left_elem c s : c ∈ trim_left_space s -> c ∈ s.
Proof.
  remember (length s) as n eqn:Hn. revert s Hn. induction (lt_wf n) as [n _ IH]. intros s -> Hc.
  destruct s as [|a s]; [done|]. simpl in Hc.
  destruct (is_space1 a). { right. apply (IH (length s)); [simpl; lia|done|done]. }
  destruct s as [|b s]; [done|].
  destruct (is_space2 a b). { right. right. apply (IH (length s)); [simpl; lia|done|done]. }
  destruct s as [|d s]; [done|].
  destruct (is_space3 a b d); [|done]. do 3 right. apply (IH (length s)); [simpl; lia|done|done].
Qed.
Lemma trim_left_rev_elem c s : c ∈ trim_left_space_rev s -> c ∈ s.
Proof.
  remember (length s) as n eqn:Hn. revert s Hn. induction (lt_wf n) as [n _ IH]. intros s -> Hc.
  destruct s as [|a s]; [done|]. simpl in Hc.
  destruct (is_space1 a). { right. apply (IH (length s)); [simpl; lia|done|done]. }
  destruct s as [|b s]; [done|].
  destruct (is_space2 b a). { right. right. apply (IH (length s)); [simpl; lia|done|done]. }
  destruct s as [|d s]; [done|].
  destruct (is_space3 d b a); [|done]. do 3 right. apply (IH (length s)); [simpl; lia|done|done].
Qed.
Lemma elem_of_rev {A} (c : A) s : c ∈ rev s <-> c ∈ s.
Proof. rewrite !elem_of_list_In. symmetry. apply in_rev. Qed.
Lemma trim_space_elem c s : c ∈ trim_space s -> c ∈ s.
Proof.
  unfold trim_space, trim_right_space. rewrite elem_of_rev. intros Hc.
  apply trim_left_rev_elem in Hc. rewrite elem_of_rev in Hc. by apply trim_left_elem.
Qed.
Lemma before_byte_elem c d s : c ∈ before_byte d s -> c ∈ s.
Proof.
  unfold before_byte. destruct (index_byte d s) as [i|]; [|done]. intros Hc.
  rewrite <- (take_drop i s). apply elem_of_app. by left.
Qed.
Lemma after_byte_elem c d s : c ∈ after_byte d s -> c ∈ s.
Proof.
  unfold after_byte. destruct (index_byte d s) as [i|]; [|intros Hn; by apply elem_of_nil in Hn]. intros Hc.
  rewrite <- (take_drop (S i) s). apply elem_of_app. by right.
Qed.
Lemma count_byte_zero c s : c ∉ s -> count_byte c s = 0.
Proof.
  intros Hn. unfold count_byte. induction s as [|a s IH]; [done|].
  apply not_elem_of_cons in Hn as [H1 H2]. simpl.
  destruct (Ascii.eqb_spec c a); [congruence|]. by apply IH.
Qed.

(** the engine reports the whole match and one string per group *)
Definition engine_counts (re_find : gostr -> gostr -> option (list gostr)) (reg : gostr) : Prop :=
  forall x gs, re_find reg x = Some gs -> length gs = 1 + count_byte "(" reg.

Lemma groupless_never_matches re_ok re_find s p reg :
  analyzePattern re_ok s = Ok p -> p_typ p = PRegexp -> p_reg p = Some reg ->
  engine_counts re_find reg -> "("%char ∉ s ->
  forall x, ~ seg_accepts re_find p x.
Proof.
  intros Ha Ht Hreg Hre Hno x Hx. apply analyze_grammar in Ha.
  destruct Ha as [| | | |body name re H1 H2 H3 H4 H5 H6 H7]; simpl in Ht; try discriminate.
  simpl in Hreg. inversion Hreg; subst reg.
  destruct Hx as (gs & reg & w & Hreg' & Hf & Hl). simpl in Hreg'. inversion Hreg'; subst reg.
  pose proof (Hre _ _ Hf) as Hlen. simpl in Hl, Hlen.
  pose proof (names_length name). rewrite count_byte_zero in Hlen; [lia|].
  rewrite H5. intros Hc. apply trim_space_elem, before_byte_elem, after_byte_elem in Hc.
  apply Hno. unfold angle. set_solver.
Qed.

Lemma grouped_can_match re_ok re_find s p reg :
  analyzePattern re_ok s = Ok p -> p_typ p = PRegexp -> p_reg p = Some reg ->
  engine_counts re_find reg -> ("("%char ∈ s \/ ")"%char ∈ s) ->
  forall x, is_Some (re_find reg x) <-> seg_accepts re_find p x.
Proof.
  intros Ha Ht Hreg Hre Hpar x. apply analyze_grammar in Ha.
  destruct Ha as [| | | |body name re H1 H2 H3 H4 H5 H6 H7]; simpl in Ht; try discriminate.
  simpl in Hreg. inversion Hreg; subst reg.
  assert (Hcount : count_byte "(" re = length (names name)).
  { destruct H6 as [[N1 N2]|[? ?]]; [|done]. exfalso.
    destruct Hpar as [Hp|Hp]; unfold angle in Hp; set_solver. }
  unfold seg_accepts, captures. simpl. split.
  - intros [gs Hf]. pose proof (Hre _ _ Hf) as Hlen. destruct gs as [|w gs]; [simpl in Hlen; lia|].
    exists gs, re, w. split_and!; [done|done|]. simpl in Hlen. lia.
  - intros (gs & reg & w & Hr & Hf & _). inversion Hr; subst. by eexists.
Qed.
