(** The parameters that dead ends cannot spoil. *)
From Verif Require Import Base GoStr Strconv Pattern Tree GoStrFacts TreeSpec ListFacts TreeFacts TreeMatch TreeTop TreeParams LastingSpec.

Section Lasting.
Context {H : Type}.
Variable re_ok : gostr -> bool.
Variable re_find : gostr -> gostr -> option (list gostr).
Local Notation node := (node H).
Local Notation enode := (enode H).
Local Notation tblp := (@tblp H).
Local Notation accepts := (route_accepts re_find).
Local Notation sacc := (seg_accepts re_find).
Local Notation binds g r ss := (list_to_map (route_binds re_find g r ss) : Params).

Definition kept_in (g : nat) (r : list pat) (ss : list gostr) (ps : Params) : Prop :=
  forall k, k ∈ lasting_names g r -> exists v, ps !! k = Some v /\ binds g r ss !! k = Some v.
Definition fine (t : tblp) (segs : list gostr) (g : nat) (e : enode) (ps : Params) : Prop :=
  exists r, find_first r t = Some (e_id e, e_handlers e) /\ accepts r segs /\ kept_in g r segs ps.

Lemma kept_union g r ss ps : accepts r ss -> (forall k, k ∈ lasting_names g r -> k ∈ route_names g r) ->
  kept_in g r ss (binds g r ss ∪ ps).
Proof.
  intros Ha Hsub k Hk. apply Hsub, (binds_dom re_find r ss g k Ha) in Hk as [v Hv]. exists v. split; [|done].
  by apply lookup_union_Some_l.
Qed.

Lemma matchEndNode_fine n t g s ps e ps' :
  rep n t -> matchEndNode re_find (n_ends n) g s ps = (Some e, ps') -> fine t [s] g e ps'.
Proof.
  intros Hr Hm. apply matchEndNode_cases in Hm. destruct Hm as (l1 & l2 & El & Hf & Ha & ->).
  assert (e ∈ n_ends n) as Hin by (rewrite El; set_solver).
  exists [e_pat e]. split; [apply firsts_single_first; by apply (rep_ends n t)|].
  split; [by constructor|]. apply kept_union; [by constructor|done].
Qed.
Lemma matchTail_fine n t g s rest ps e ps' :
  rep n t -> rest <> [] -> matchTail (n_ends n) g s (join (L "/") rest) ps = (Some e, ps') ->
  fine t (s :: rest) g e ps'.
Proof.
  intros Hr Hne Hm. unfold matchTail in Hm.
  destruct (List.last (map Some (n_ends n)) None) as [e'|] eqn:El; [|done].
  apply last_map_Some in El as (l' & El).
  assert (e' ∈ n_ends n) as Hin by (rewrite El; set_solver).
  destruct (e_typ e') eqn:Et; try done.
  assert (e' = e) as -> by congruence.
  assert (ps' = bind_glob_end (e_pat e) g (s ++ L "/" ++ join (L "/") rest) ps) as -> by congruence. clear Hm.
  assert (accepts [e_pat e] (s :: rest)) as Ha by (by constructor).
  exists [e_pat e]. split; [apply firsts_single_first; by apply (rep_ends n t)|].
  split; [done|].
  assert (bind_glob_end (e_pat e) g (s ++ L "/" ++ join (L "/") rest) ps = binds g [e_pat e] (s :: rest) ∪ ps) as ->.
  { rewrite bind_glob_end_map. cbn [route_binds]. change (p_typ (e_pat e)) with (e_typ e).
    rewrite Et. by rewrite (join_cons _ s rest) by done. }
  by apply kept_union.
Qed.

Lemma match_segs_fine segs : forall n t g ps e ps',
  rep n t -> segs <> [] -> match_segs re_find segs n g ps = (Some e, ps') -> fine t segs g e ps'.
Proof.
  induction segs as [|s rest IH]; intros n t g ps e ps' Hr Hne Hm; [done|].
  cbn [match_segs] in Hm. destruct rest as [|s2 rest].
  { by eapply matchEndNode_fine. }
  set (rest' := s2 :: rest) in *.
  assert (rest' <> []) as Hne' by done.
  assert (Hsubs : forall x, x ∈ n_subs n -> rep x (tails (n_pat x) t)) by (by inversion Hr).
  cut (forall l ps, (forall x, x ∈ l -> x ∈ n_subs n) ->
    loop_segs re_find (match_segs re_find rest') (n_ends n) g s (join (L "/") rest') l ps = (Some e, ps') ->
    fine t (s :: rest') g e ps').
  { intros Hc. by apply (Hc (n_subs n) ps). }
  clear ps Hm. induction l as [|x l IHl]; intros ps Hin Hm.
  { by eapply matchTail_fine. }
  assert (Hrec : forall g' ps1 ps2, match_segs re_find rest' x g' ps1 = (Some e, ps2) -> fine (tails (n_pat x) t) rest' g' e ps2).
  { intros g' ps1 ps2 H1. eapply IH; [apply Hsubs, Hin; left|done|exact H1]. }
  assert (Hl : forall ps1, loop_segs re_find (match_segs re_find rest') (n_ends n) g s (join (L "/") rest') l ps1 = (Some e, ps') ->
    fine t (s :: rest') g e ps').
  { intros ps1. apply IHl. intros y Hy. apply Hin. by right. }
  clear IH IHl.
  assert (Hup : forall g' ps2, sacc (n_pat x) s ->
    (forall r, accepts r rest' -> kept_in g' r rest' ps2 -> kept_in g (n_pat x :: r) (s :: rest') ps') ->
    fine (tails (n_pat x) t) rest' g' e ps2 -> fine t (s :: rest') g e ps').
  { intros g' ps2 Hx Hk (r & Hff & Ha & Hkr). exists (n_pat x :: r).
    assert (r <> []) by (intros ->; by apply route_accepts_nil_l in Ha).
    split; [by rewrite <- find_first_tails|]. split; [by constructor|]. by apply Hk. }
  assert (Hbinds : forall r, accepts r rest' ->
    route_binds re_find g (n_pat x :: r) (s :: rest') =
    match p_typ (n_pat x) with
      | PStatic => route_binds re_find g r rest'
      | PRegexp => route_binds re_find g r rest' ++ regexp_binds re_find (n_pat x) s
      | PHolder => holder_binds (n_pat x) s ++ route_binds re_find g r rest'
      | PMatchAll =>
          (if decide (p_parsed (n_pat x) = []) then [(star_name g, s)]
           else glob_binds (n_pat x) g (join (L "/") (s :: rest'))) ++ route_binds re_find (S g) r rest'
    end /\
    lasting_names g (n_pat x :: r) =
    match p_typ (n_pat x) with
      | PStatic => lasting_names g r
      | PRegexp => lasting_names g r
      | PHolder => (if decide (p_parsed (n_pat x) = L "_") then [] else [p_parsed (n_pat x)]) ++ lasting_names g r
      | PMatchAll =>
          (if decide (p_parsed (n_pat x) = []) then [star_name g]
           else if decide (p_parsed (n_pat x) = L "_") then [] else [p_parsed (n_pat x)]) ++ lasting_names (S g) r
    end).
  { intros r Ha. destruct r as [|p r]; [by apply route_accepts_nil_l in Ha|]. split; reflexivity. }
  cbn [loop_segs] in Hm. destruct (p_typ (n_pat x)) eqn:Et.
  - destruct (seqb (p_raw (n_pat x)) s) eqn:Eq; [|by eapply Hl].
    apply (sacc_static re_find) in Eq; [|done].
    destruct (match_segs re_find rest' x g ps) as [[e'|] ps2] eqn:Er; [|by eapply Hl].
    inversion Hm; subst e' ps2. apply Hrec in Er. apply (Hup g ps'); [done| |done].
    intros r Ha Hk k Hin'. destruct (Hbinds r Ha) as [-> E2]. rewrite E2 in Hin'. by apply Hk.
  - destruct (regexp_groups re_find (n_pat x) s) as [gs|] eqn:Eg; [|by eapply Hl].
    apply (regexp_groups_spec re_find) in Eg as Hc.
    assert (sacc (n_pat x) s) as Hx by (unfold seg_accepts; rewrite Et; eauto).
    destruct (match_segs re_find rest' x g _) as [[e'|] ps2] eqn:Er; [|by eapply Hl].
    inversion Hm; subst e' ps2. apply Hrec in Er. apply (Hup g ps'); [done| |done].
    intros r Ha Hk k Hin'. destruct (Hbinds r Ha) as [-> E2]. rewrite E2 in Hin'. destruct (Hk k Hin') as (v & H1 & H2).
    exists v. split; [done|]. rewrite list_to_map_app. by apply lookup_union_Some_l.
  - assert (sacc (n_pat x) s) as Hx by (unfold seg_accepts; by rewrite Et).
    destruct (match_segs re_find rest' x g ps) as [[e'|] ps2] eqn:Er; [|by eapply Hl].
    inversion Hm; subst e' ps'. apply Hrec in Er. apply (Hup g ps2); [done| |done].
    intros r Ha Hk k Hin'. destruct (Hbinds r Ha) as [-> E2]. rewrite E2 in Hin'.
    rewrite bind_holder_map, list_to_map_app.
    destruct ((list_to_map (holder_binds (n_pat x) s) : Params) !! k) as [v|] eqn:Ek.
    + exists v. split; by apply lookup_union_Some_l.
    + apply elem_of_app in Hin' as [Hin'|Hin'].
      * exfalso. unfold holder_binds in Ek. case_decide; [by apply elem_of_nil in Hin'|].
        apply elem_of_list_singleton in Hin' as ->. simpl in Ek. by rewrite lookup_insert in Ek.
      * destruct (Hk k Hin') as (v & H1 & H2). exists v. by rewrite !lookup_union_r.
  - assert (sacc (n_pat x) s) as Hx by (unfold seg_accepts; by rewrite Et).
    destruct (match_segs re_find rest' x (S g) ps) as [[e'|] ps2] eqn:Er; [|by eapply Hl].
    assert (e' = e) as -> by congruence.
    assert (ps' = bind_glob_sub (n_pat x) g s (join (L "/") rest') ps2) as -> by congruence. clear Hm.
    apply Hrec in Er. apply (Hup (S g) ps2); [done| |done].
    intros r Ha Hk k Hin'. destruct (Hbinds r Ha) as [-> E2]. rewrite E2 in Hin'.
    rewrite bind_glob_sub_map, list_to_map_app. 
    assert (s ++ L "/" ++ join (L "/") rest' = join (L "/") (s :: rest')) as -> by (by rewrite join_cons).
    set (B := (if decide (p_parsed (n_pat x) = []) then [(star_name g, s)]
           else glob_binds (n_pat x) g (join (L "/") (s :: rest')))).
    destruct ((list_to_map B : Params) !! k) as [v|] eqn:Ek.
    + exists v. split; by apply lookup_union_Some_l.
    + apply elem_of_app in Hin' as [Hin'|Hin'].
      * exfalso. unfold B, glob_binds in Ek. clear B. repeat case_decide; try (by apply elem_of_nil in Hin');
          apply elem_of_list_singleton in Hin' as ->; simpl in Ek; by rewrite lookup_insert in Ek.
      * destruct (Hk k Hin') as (v & H1 & H2). exists v. by rewrite !lookup_union_r.
Qed.

Lemma params_lasting (us : list (gostr * list H)) T path tbl (e : enode) ps :
  adds re_ok us = Ok T -> routes_of re_ok us tbl -> Match re_find (Some T) path = (Some e, ps) ->
  exists r m, tbl !! e_id e = Some r /\ ps = Some m /\
    forall k, k ∈ lasting_names 0 r ->
      exists v, m !! k = Some v /\ binds 0 r (path_segs path) !! k = Some v.
Proof.
  intros Ha Hro Hm. apply (adds_rep re_ok re_find) in Ha as (tbl' & Hro' & Hrep).
  rewrite (routes_of_fun _ _ _ _ Hro' Hro) in *. clear tbl' Hro'.
  assert (Hl : length us = length tbl) by (by eapply Forall2_length).
  rewrite Match_eq in Hm. destruct (match_segs _ _ _ _ _) as [o' m] eqn:Em.
  inversion Hm; subst.
  apply (match_segs_fine _ T (payloads 0 us tbl)) in Em; [|done|apply path_segs_nonempty].
  destruct Em as (r & Hff & Hacc & Hk). apply payloads_find in Hff as (j & u & Hid & Hu & Hr & Hmin); [|done].
  exists r, m. rewrite Hid. done.
Qed.
End Lasting.
