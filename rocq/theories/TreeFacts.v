(** The route tree against the specification of TreeSpec.v. *)
From Verif Require Import Base GoStr Strconv Pattern Tree GoStrFacts TreeSpec ListFacts.

Section Facts.
Context {H : Type}.
Variable re_ok : gostr -> bool.
Variable re_find : gostr -> gostr -> option (list gostr).
Local Notation node := (node H).
Local Notation enode := (enode H).
Local Notation analyze := (analyzePattern re_ok).

(** ** Adding, on lists of segments *)

Definition trim1 (l : list gostr) : list gostr :=
  match l with
  | [] :: ((_ :: _) as l') => l'
  | _ => l
  end.

Lemma skip_empty_unfold l :
  skip_empty l =
  match trim1 l with
  | [] => []
  | [x] => [x]
  | x :: r => x :: skip_empty r
  end.
Proof. destruct l as [|[|c x] [|y [|z r]]]; reflexivity. Qed.

Fixpoint add_segs (n : node) (segs : list gostr) (id : nat) (hs : list H)
  : res (node * enode * list ptype) :=
  match segs with
  | [] => Diverge
  | segment :: rest =>
      match rest with
      | [] => addEndNode re_ok n segment id hs
      | _ =>
          match find_split (fun s => seqb (p_raw (n_pat s)) segment) (n_subs n) with
          | Some (l1, s, l2) =>
              let! (s', e, ts) := add_segs s rest id hs in
              Ok (Node (n_pat n) (l1 ++ s' :: l2) (n_ends n), e, n_typ s :: ts)
          | None =>
              let! p := analyze segment in
              let! (s', e, ts) := add_segs (Node p [] []) rest id hs in
              Ok (Node (n_pat n) (insert_by_typ n_typ s' (n_subs n)) (n_ends n), e, p_typ p :: ts)
          end
      end
  end.

Lemma addNextSegment_segs fuel : forall n u id hs,
  length u < fuel ->
  addNextSegment re_ok fuel n u id hs = add_segs n (skip_empty (split_byte "/" u)) id hs.
Proof.
  induction fuel as [|fuel IH]; intros n u id hs Hl; [lia|].
  cbn [addNextSegment]. rewrite skip_empty_unfold.
  assert (trim1 (split_byte "/" u) = split_byte "/" (trim_prefix (L "/") u)) as ->.
  { change (L "/") with ["/"%char]. rewrite (split_trim_prefix "/" u). by destruct (split_byte "/" u) as [|[|c x] [|y r]]. }
  pose proof (trim_prefix_length (L "/") u) as Hlen.
  set (u' := trim_prefix (L "/") u) in *.
  destruct (index_byte "/" u') as [i|] eqn:E.
  - rewrite (split_byte_Some _ _ _ E). apply index_byte_Some in E as (E1 & E2 & E3).
    assert (length (drop (S i) u') < fuel) as Hd by (rewrite drop_length; lia).
    pose proof (split_byte_nonempty "/" (drop (S i) u')) as Hne.
    destruct (split_byte "/" (drop (S i) u')) as [|x r] eqn:Er; [done|].
    cbn [add_segs].
    destruct (skip_empty (x :: r)) as [|y t] eqn:Es.
    { rewrite skip_empty_unfold in Es. destruct x as [|c x]; destruct r as [|? [|? ?]]; discriminate. }
    rewrite <- Es, <- Er.
    destruct (find_split _ (n_subs n)) as [[[l1 s] l2]|].
    + rewrite IH by done. done.
    + destruct (analyze (take i u')); simpl; [|done|done]. rewrite IH by done. done.
  - rewrite (split_byte_None _ _ E). done.
Qed.

Lemma add_eq n u id hs :
  add re_ok n u id hs =
  let! (n', e, ts) := add_segs n (uri_segs u) id hs in Ok (n', e, n_typ n :: ts).
Proof. unfold add, uri_segs. rewrite addNextSegment_segs; [done|]. lia. Qed.

(** ** Matching, on lists of segments *)

Section Loop.
Variable rec : node -> nat -> Params -> option enode * Params.
Variable ends : list enode.
Variable g : nat.
Variable segment rest : gostr.
Fixpoint loop_segs (l : list node) (ps : Params) : option enode * Params :=
  match l with
  | [] => matchTail ends g segment rest ps
  | s :: l' =>
      let p := n_pat s in
      match p_typ p with
      | PStatic =>
          if seqb (p_raw p) segment then
            match rec s g ps with
            | (Some e, ps') => (Some e, ps')
            | (None, ps') => loop_segs l' ps'
            end
          else loop_segs l' ps
      | PRegexp =>
          match regexp_groups re_find p segment with
          | None => loop_segs l' ps
          | Some groups =>
              match rec s g (set_all (p_wild p) groups ps) with
              | (Some e, ps') => (Some e, ps')
              | (None, ps') => loop_segs l' ps'
              end
          end
      | PHolder =>
          match rec s g ps with
          | (Some e, ps') => (Some e, bind_holder p segment ps')
          | (None, ps') => loop_segs l' ps'
          end
      | PMatchAll =>
          match rec s (S g) ps with
          | (Some e, ps') => (Some e, bind_glob_sub p g segment rest ps')
          | (None, ps') => loop_segs l' ps'
          end
      end
  end.
End Loop.

Fixpoint match_segs (segs : list gostr) (n : node) (g : nat) (ps : Params)
  : option enode * Params :=
  match segs with
  | [] => (None, ps)
  | s :: rest =>
      match rest with
      | [] => matchEndNode re_find (n_ends n) g s ps
      | _ => loop_segs (match_segs rest) (n_ends n) g s (join (L "/") rest) (n_subs n) ps
      end
  end.

Lemma matchNextSegment_segs n g uri ps :
  matchNextSegment re_find n g uri ps = match_segs (split_byte "/" uri) n g ps.
Proof.
  remember (split_byte "/" uri) as segs eqn:Es. revert n g uri ps Es.
  induction segs as [|s rest IH]; intros n g uri ps Es.
  { symmetry in Es. by apply split_byte_nonempty in Es. }
  destruct n as [p subs ends].
  destruct (index_byte "/" uri) as [i|] eqn:E.
  - pose proof (split_byte_Some _ _ _ E) as Hsp. rewrite Hsp in Es. injection Es as Hs Hr.
    pose proof (split_byte_nonempty "/" (drop (S i) uri)) as Hne. rewrite <- Hr in Hne.
    assert (join (L "/") rest = drop (S i) uri) as Hj by (rewrite Hr; apply (join_split "/")).
    subst s. cbn [match_segs n_subs n_ends]. destruct rest as [|y t]; [done|].
    rewrite Hj. cbn [matchNextSegment]. rewrite E.
    clear Hsp Hj. revert ps. induction subs as [|s' l IHl]; intros ps; [done|].
    cbn [loop_segs]. destruct (p_typ (n_pat s')) eqn:Et.
    + destruct (seqb _ _); [|apply IHl]. rewrite (IH s' g _ ps Hr).
      destruct (match_segs _ _ _ _) as [[e|] ps']; [done|]. apply IHl.
    + destruct (regexp_groups _ _ _) as [gr|]; [|apply IHl]. rewrite (IH s' g _ _ Hr).
      destruct (match_segs _ _ _ _) as [[e|] ps']; [done|]. apply IHl.
    + rewrite (IH s' g _ _ Hr).
      destruct (match_segs _ _ _ _) as [[e|] ps']; [done|]. apply IHl.
    + rewrite (IH s' (S g) _ _ Hr).
      destruct (match_segs _ _ _ _) as [[e|] ps']; [done|]. apply IHl.
  - rewrite (split_byte_None _ _ E) in Es. inversion Es; subst. cbn [matchNextSegment]. by rewrite E.
Qed.

Lemma Match_eq n path :
  Match re_find (Some n) path =
  let '(e, ps) := match_segs (path_segs path) n 0 ∅ in (e, Some ps).
Proof. unfold Match, path_segs. by rewrite matchNextSegment_segs. Qed.

(** ** The table a tree represents *)

Definition tblp := list (list pat * (nat * list H)).

Definition heads (t : tblp) : list pat :=
  omap (fun rp => match fst rp with p :: _ :: _ => Some p | _ => None end) t.
Definition singles (t : tblp) : list (pat * (nat * list H)) :=
  omap (fun rp => match fst rp with [p] => Some (p, snd rp) | _ => None end) t.
Definition tails (p : pat) (t : tblp) : tblp :=
  omap (fun rp => match fst rp with
                  | q :: ((_ :: _) as r) => if decide (q = p) then Some (r, snd rp) else None
                  | _ => None end) t.
(** the payload of the first entry with that route *)
Definition find_first (r : list pat) (t : tblp) : option (nat * list H) :=
  head (omap (fun rp => if decide (fst rp = r) then Some (snd rp) else None) t).

Definition mk (x : pat * (nat * list H)) : enode := mkEnd (fst x) (fst (snd x)) (snd (snd x)).

Definition idp (p : pat) : pat := p.
Lemma map_idp l : map idp l = l.
Proof. apply map_id. Qed.

Inductive rep : node -> tblp -> Prop :=
  rep_intro p subs ends t :
    map n_pat subs = order_by p_typ (firsts idp (heads t)) ->
    ends = order_by e_typ (map mk (firsts fst (singles t))) ->
    (forall s, s ∈ subs -> rep s (tails (n_pat s) t)) ->
    rep (Node p subs ends) t.

Definition pat_ok (p : pat) : Prop := analyze (p_raw p) = Ok p.
Definition tbl_ok (t : tblp) : Prop := Forall (fun rp => Forall pat_ok (fst rp)) t.

Lemma analyze_raw s p : analyze s = Ok p -> p_raw p = s.
Proof.
  unfold analyzePattern. destruct (negb _); [discriminate|].
  intros Hb. apply rbind_ok in Hb as (parsed & _ & Hb).
  destruct (has_prefix (L "*") parsed); [by inversion Hb|].
  destruct (contains_byte "<" s); [|by inversion Hb].
  destruct (contains_byte "~" s); [|by inversion Hb].
  apply rbind_ok in Hb as (r & _ & Hb). destruct r; [|discriminate].
  destruct (re_ok _); [|discriminate]. by inversion Hb.
Qed.
Lemma analyze_ok s p : analyze s = Ok p -> pat_ok p.
Proof. intros Ha. unfold pat_ok. by rewrite (analyze_raw _ _ Ha). Qed.

Lemma rep_empty p : rep (Node p [] []) [].
Proof. constructor; [done|done|]. intros s Hs. by apply elem_of_nil in Hs. Qed.

Lemma tails_ok p t : tbl_ok t -> tbl_ok (tails p t).
Proof.
  intros Hok. apply Forall_forall. intros [r pl] Hr.
  apply elem_of_list_omap in Hr as ([r' pl'] & Hr' & He). simpl in He.
  destruct r' as [|q [|q' r']]; [done|done|]. case_decide; [|done]. inversion He; subst.
  eapply Forall_forall in Hok; [|exact Hr']. simpl in Hok. by inversion Hok.
Qed.

Lemma elem_heads p t : p ∈ heads t <-> exists x r pl, (p :: x :: r, pl) ∈ t.
Proof.
  unfold heads. rewrite elem_of_list_omap. split.
  - intros ([[|q [|x r]] pl] & Hin & He); simpl in He; try done. inversion He; subst. eauto.
  - intros (x & r & pl & Hin). exists (p :: x :: r, pl). done.
Qed.
Lemma elem_singles p pl t : (p, pl) ∈ singles t <-> ([p], pl) ∈ t.
Proof.
  unfold singles. rewrite elem_of_list_omap. split.
  - intros ([[|q [|x r]] pl'] & Hin & He); simpl in He; try done. by inversion He; subst.
  - intros Hin. by exists ([p], pl).
Qed.
Lemma elem_tails p t r pl : (r, pl) ∈ tails p t <-> (p :: r, pl) ∈ t /\ r <> [].
Proof.
  unfold tails. rewrite elem_of_list_omap. split.
  - intros ([[|q [|x r']] pl'] & Hin & He); simpl in He; try done.
    case_decide; [|done]. inversion He; subst. done.
  - intros [Hin Hne]. exists (p :: r, pl). split; [done|]. simpl.
    destruct r; [done|]. by rewrite decide_True.
Qed.

Lemma tails_notin p t : p ∉ heads t -> tails p t = [].
Proof.
  intros Hn. destruct (tails p t) as [|[r pl] l] eqn:E; [done|]. exfalso.
  assert ((r, pl) ∈ tails p t) as Hin by (rewrite E; left).
  apply elem_tails in Hin as [Hin Hne]. apply Hn, elem_heads. destruct r; [done|]. eauto.
Qed.

Lemma heads_snoc t r pl :
  heads (t ++ [(r, pl)]) = heads t ++ match r with p :: _ :: _ => [p] | _ => [] end.
Proof. unfold heads. rewrite omap_app. f_equal. simpl. by destruct r as [|p [|q r]]. Qed.
Lemma singles_snoc t r pl :
  singles (t ++ [(r, pl)]) = singles t ++ match r with [p] => [(p, pl)] | _ => [] end.
Proof. unfold singles. rewrite omap_app. f_equal. simpl. by destruct r as [|p [|q r]]. Qed.
Lemma tails_snoc q t r pl :
  tails q (t ++ [(r, pl)]) =
  tails q t ++ match r with
               | p :: ((_ :: _) as r') => if decide (p = q) then [(r', pl)] else []
               | _ => [] end.
Proof.
  unfold tails. rewrite omap_app. f_equal. simpl. destruct r as [|p [|x r]]; try done.
  by case_decide.
Qed.

Lemma omap_cons {A B} (f : A -> option B) x l :
  omap f (x :: l) = match f x with Some y => y :: omap f l | None => omap f l end.
Proof. reflexivity. Qed.

Lemma find_first_tails p r t : r <> [] -> find_first r (tails p t) = find_first (p :: r) t.
Proof.
  intros Hr. unfold find_first. f_equal. unfold tails. induction t as [|[r' pl] t IH]; [done|].
  rewrite !(omap_cons _ (r', pl)). cbn [fst snd].
  destruct (decide (r' = p :: r)) as [->|Hne].
  - destruct r as [|x r]; [done|]. rewrite decide_True by done. rewrite omap_cons.
    cbn [fst snd]. rewrite decide_True by done. by rewrite IH.
  - destruct r' as [|q [|x r']]; [done|done|].
    destruct (decide (q = p)) as [->|Hne']; [|done].
    rewrite omap_cons. cbn [fst snd]. rewrite decide_False by congruence. done.
Qed.

Lemma find_first_single p t :
  find_first [p] t = head (omap (fun x => if decide (fst x = p) then Some (snd x) else None) (singles t)).
Proof.
  unfold find_first. f_equal. unfold singles. induction t as [|[r pl] t IH]; [done|].
  rewrite !(omap_cons _ (r, pl)). cbn [fst snd].
  destruct (decide (r = [p])) as [->|Hne].
  - rewrite omap_cons. cbn [fst snd]. rewrite decide_True by done. by rewrite IH.
  - destruct r as [|q [|x r]]; [done| |done].
    rewrite omap_cons. cbn [fst snd]. rewrite decide_False by congruence. done.
Qed.

Lemma firsts_single_first p pl t :
  (p, pl) ∈ firsts fst (singles t) -> find_first [p] t = Some pl.
Proof.
  rewrite find_first_single. intros Hin. apply firsts_first in Hin as (l1 & l2 & -> & Hn).
  rewrite omap_app. assert (omap (fun x => if decide (fst x = p) then Some (snd x) else None) l1 = []) as ->.
  { simpl in Hn. clear -Hn. induction l1 as [|x l1 IH]; [done|]. simpl in *.
    apply not_elem_of_cons in Hn as [Hn1 Hn2]. rewrite decide_False by congruence. by apply IH. }
  simpl. by rewrite decide_True.
Qed.

(** the leaves of a represented node *)
Lemma rep_ends n t e :
  rep n t -> e ∈ n_ends n <-> (e_pat e, (e_id e, e_handlers e)) ∈ firsts fst (singles t).
Proof.
  intros Hr. inversion Hr as [p subs ends t' Hs He Hrec]; subst. simpl.
  rewrite order_elem. rewrite elem_of_list_fmap. split.
  - intros ([q [i hs]] & -> & Hin). done.
  - intros Hin. exists (e_pat e, (e_id e, e_handlers e)). split; [by destruct e|done].
Qed.
Lemma rep_subs n t p : rep n t -> p ∈ map n_pat (n_subs n) <-> p ∈ heads t.
Proof.
  intros Hr. inversion Hr as [p' subs ends t' Hs He Hrec]; subst. simpl. rewrite Hs.
  rewrite order_elem, <- (map_idp (firsts idp (heads t))), (firsts_keys idp), map_idp. done.
Qed.
Lemma rep_subs_NoDup n t : rep n t -> NoDup (map n_pat (n_subs n)).
Proof.
  intros Hr. inversion Hr as [p' subs ends t' Hs He Hrec]; subst. simpl. rewrite Hs.
  apply order_NoDup. rewrite <- (map_idp (firsts idp (heads t))). apply (firsts_NoDup idp).
Qed.

(** adding a route to a represented node *)
Lemma add_segs_rep segs : forall n t id hs n' e ts,
  rep n t -> tbl_ok t -> add_segs n segs id hs = Ok (n', e, ts) ->
  exists r, Forall2 (fun s p => analyze s = Ok p) segs r /\
    n_pat n' = n_pat n /\
    rep n' (t ++ [(r, (id, hs))]) /\ ts = map p_typ r /\
    find_first r (t ++ [(r, (id, hs))]) = Some (e_id e, e_handlers e).
Proof.
  induction segs as [|s rest IH]; intros n t id hs n' e ts Hrep Hok Hadd; [discriminate|].
  inversion Hrep as [p subs ends t' Hs He Hrec]; subst n t'.
  destruct rest as [|s2 rest].
  - cbn [add_segs] in Hadd. unfold addEndNode in Hadd. cbn [n_ends n_subs n_pat] in Hadd.
    destruct (find_split _ ends) as [[[l1 x] l2]|] eqn:Ef.
    + inversion Hadd; subst n' x ts. apply find_split_Some in Ef as (El & Ex & _).
      apply seqb_true in Ex.
      assert (e ∈ n_ends (Node p subs ends)) as Hin by (simpl; rewrite El; set_solver).
      apply (rep_ends _ _ _ Hrep) in Hin. pose proof (firsts_elem _ _ _ Hin) as Hin'.
      apply elem_singles in Hin' as Ht.
      assert (pat_ok (e_pat e)) as Hpo.
      { eapply Forall_forall in Hok; [|exact Ht]. by inversion Hok. }
      unfold pat_ok in Hpo. rewrite Ex in Hpo.
      assert (firsts fst (singles t ++ [(e_pat e, (id, hs))]) = firsts fst (singles t)) as Hfs.
      { rewrite firsts_snoc, decide_True; [done|]. simpl.
        apply elem_of_list_fmap. eexists. split; [|exact Hin]. done. }
      exists [e_pat e]. split_and!; [by repeat constructor|done| |done|].
      * constructor.
        -- rewrite heads_snoc, app_nil_r. done.
        -- rewrite singles_snoc, Hfs. done.
        -- intros s' Hs'. rewrite tails_snoc, app_nil_r. by apply Hrec.
      * apply firsts_single_first. rewrite singles_snoc, Hfs. done.
    + apply rbind_ok in Hadd as (q & Hq & Hadd). inversion Hadd; subst n' e ts. clear Hadd.
      pose proof (analyze_raw _ _ Hq) as Hraw.
      assert (q ∉ map fst (firsts fst (singles t))) as Hnew.
      { intros Hin. apply elem_of_list_fmap in Hin as ([q' [i' hs']] & Heq & Hin). simpl in Heq. subst q'.
        assert (mkEnd q i' hs' ∈ n_ends (Node p subs ends)) as Hin' by (apply (rep_ends _ _ _ Hrep); done).
        pose proof (find_split_None _ _ _ Ef Hin') as Hf. simpl in Hf.
        apply seqb_false in Hf. congruence. }
      assert (firsts fst (singles t ++ [(q, (id, hs))]) = firsts fst (singles t) ++ [(q, (id, hs))]) as Hfs.
      { by rewrite firsts_snoc, decide_False. }
      exists [q]. split_and!; [by repeat constructor|done| |done|].
      * constructor.
        -- rewrite heads_snoc, app_nil_r. done.
        -- rewrite singles_snoc, Hfs, map_app; cbn [map]; rewrite order_snoc, <- He. done.
        -- intros s' Hs'. rewrite tails_snoc, app_nil_r. by apply Hrec.
      * apply firsts_single_first. rewrite singles_snoc, Hfs. set_solver.
  - cbn [add_segs n_subs n_pat n_ends] in Hadd.
    destruct (find_split _ subs) as [[[l1 x] l2]|] eqn:Ef.
    + apply find_split_Some in Ef as (El & Ex & _). apply seqb_true in Ex.
      apply rbind_ok in Hadd as ([[x' e'] ts'] & Hrecadd & Hadd). inversion Hadd; subst n' e' ts. clear Hadd.
      assert (x ∈ subs) as Hx by (rewrite El; set_solver).
      destruct (IH _ _ _ _ _ _ _ (Hrec x Hx) (tails_ok _ _ Hok) Hrecadd)
        as (r & Hr & Hp & Hrep' & -> & Hff).
      assert (r <> []) as Hrne by (intros ->; inversion Hr).
      assert (n_pat x ∈ map n_pat (n_subs (Node p subs ends))) as Hinx
        by (simpl; apply elem_of_list_fmap; by exists x).
      apply (rep_subs _ _ _ Hrep) in Hinx as Hhead.
      assert (pat_ok (n_pat x)) as Hpo.
      { apply elem_heads in Hhead as (y & r' & pl & Hin).
        eapply Forall_forall in Hok; [|exact Hin]. by inversion Hok. }
      unfold pat_ok in Hpo. rewrite Ex in Hpo.
      assert (firsts idp (heads t ++ [n_pat x]) = firsts idp (heads t)) as Hfs.
      { rewrite firsts_snoc, decide_True; [done|]. rewrite (firsts_keys idp), map_idp. done. }
      pose proof (rep_subs_NoDup _ _ Hrep) as Hnd. simpl in Hnd.
      exists (n_pat x :: r). split_and!; [by constructor|done| |done|].
      * destruct r as [|r1 r]; [done|]. constructor.
        -- rewrite heads_snoc, Hfs, <- Hs, El, !map_app. simpl. by rewrite Hp.
        -- rewrite singles_snoc, app_nil_r. done.
        -- intros s' Hs'. rewrite tails_snoc. rewrite El, map_app in Hnd. simpl in Hnd.
           apply NoDup_app in Hnd as (Hd1 & Hd2 & Hd3). inversion Hd3 as [|? ? Hd4 Hd5]; subst.
           apply elem_of_app in Hs' as [Hs'|Hs']; [|apply elem_of_cons in Hs' as [->|Hs']].
           ++ rewrite decide_False, app_nil_r; [apply Hrec; set_solver|].
              intros Heq. apply (Hd2 (n_pat s')); [apply elem_of_list_fmap; by exists s'|].
              rewrite <- Heq. left.
           ++ rewrite Hp. rewrite decide_True by done. done.
           ++ rewrite decide_False, app_nil_r; [apply Hrec; set_solver|].
              intros Heq. apply Hd4. rewrite Heq. apply elem_of_list_fmap; by exists s'.
      * rewrite <- find_first_tails by done. rewrite tails_snoc.
        destruct r as [|r1 r]; [done|]. rewrite decide_True by done. done.
    + apply rbind_ok in Hadd as (q & Hq & Hadd).
      apply rbind_ok in Hadd as ([[x' e'] ts'] & Hrecadd & Hadd). inversion Hadd; subst n' e' ts. clear Hadd.
      pose proof (analyze_raw _ _ Hq) as Hraw.
      assert (q ∉ heads t) as Hnew.
      { intros Hin. apply (rep_subs _ _ _ Hrep) in Hin. simpl in Hin.
        apply elem_of_list_fmap in Hin as (s' & -> & Hin).
        pose proof (find_split_None _ _ _ Ef Hin) as Hf. simpl in Hf.
        apply seqb_false in Hf. congruence. }
      assert (tails q t = []) as Htq by (by apply tails_notin).
      destruct (IH (Node q [] []) [] _ _ _ _ _ (rep_empty q) (Forall_nil_2 _) Hrecadd)
        as (r & Hr & Hp & Hrep' & -> & Hff).
      assert (r <> []) as Hrne by (intros ->; inversion Hr).
      assert (firsts idp (heads t ++ [q]) = firsts idp (heads t) ++ [q]) as Hfs.
      { rewrite firsts_snoc, decide_False; [done|]. rewrite (firsts_keys idp), map_idp. done. }
      simpl in Hp.
      exists (q :: r). split_and!; [by constructor|done| |done|].
      * destruct r as [|r1 r]; [done|]. constructor.
        -- rewrite heads_snoc, Hfs, order_snoc, <- Hs.
           rewrite (insert_map n_typ p_typ n_pat) by done. by rewrite Hp.
        -- rewrite singles_snoc, app_nil_r. done.
        -- intros s' Hs'. rewrite tails_snoc. apply insert_elem in Hs' as [->|Hs'].
           ++ rewrite Hp, Htq, decide_True by done. done.
           ++ rewrite decide_False, app_nil_r; [by apply Hrec|].
              intros Heq. apply Hnew. apply (rep_subs _ _ _ Hrep). simpl. rewrite Heq.
              apply elem_of_list_fmap; by exists s'.
      * rewrite <- find_first_tails by done. rewrite tails_snoc, Htq.
        destruct r as [|r1 r]; [done|]. rewrite decide_True by done. done.
Qed.

End Facts.
