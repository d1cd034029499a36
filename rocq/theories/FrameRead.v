(** A connection has one reading. *)
From Coq Require Import ZArith NArith.
From Verif Require Import Base GoStr UtilSpec StrconvFacts Header RequestSpec RequestFacts FrameSpec.
Local Open Scope Z_scope.

(** the first end of a line *)
Lemma split_line (a b x y : gostr) : bare a -> bare b -> a ++ line_end ++ x = b ++ line_end ++ y -> a = b /\ x = y.
Proof.
  intros [Ha _] [Hb _] H. unfold line_end in H. cbn [app] in H. apply app_sep_inj in H as [-> H]; [|done..].
  split; [done|]. by injection H.
Qed.
Lemma bare_app a b : bare (a ++ b) <-> bare a /\ bare b.
Proof. unfold bare. rewrite !not_elem_of_app. tauto. Qed.
Lemma bare_all (P : ascii -> Prop) s : Forall P s -> ~ P "013"%char -> ~ P "010"%char -> bare s.
Proof. intros H H1 H2. rewrite Forall_forall in H. split; intros Hin; apply H in Hin; auto. Qed.
Lemma token_bare n : is_token n -> bare n.
Proof.
  intros H. eapply bare_all; [exact H| |]; cbn; intros Hin; apply (bool_decide_eq_true_2 _) in Hin; vm_compute in Hin; discriminate.
Qed.
Lemma token_colon n : is_token n -> ":"%char ∉ n.
Proof.
  intros H Hin. unfold is_token in H. rewrite Forall_forall in H. apply H in Hin.
  apply (bool_decide_eq_true_2 _) in Hin. vm_compute in Hin. discriminate.
Qed.
Lemma blanks_bare o : Forall blank o -> bare o.
Proof. intros H. eapply bare_all; [exact H| |]; intros [|]; discriminate. Qed.
Lemma digits_bare s : Forall is_digit s -> bare s.
Proof. intros H. eapply bare_all; [exact H| |]; intros Hd; unfold is_digit in Hd; vm_compute in Hd; destruct Hd as [Hd _]; by apply Hd. Qed.

(** blanks around a value do not belong to it *)
Lemma front_blanks o : forall v o' v', Forall blank o -> Forall blank o' ->
  (forall a x, v = a :: x -> ~ blank a) -> (forall a x, v' = a :: x -> ~ blank a) -> (v = [] -> o = []) -> (v' = [] -> o' = []) ->
  o ++ v = o' ++ v' -> o = o' /\ v = v'.
Proof.
  induction o as [|a o IH]; intros v o' v' Ho Ho' Hv Hv' He He' H; destruct o' as [|b o']; cbn [app] in *.
  - done.
  - subst v. inversion Ho'; subst. by edestruct Hv.
  - subst v'. inversion Ho; subst. by edestruct Hv'.
  - injection H as -> H. inversion Ho; inversion Ho'; subst.
    destruct (IH v o' v') as [-> ->]; auto; intros E; [specialize (He E)|specialize (He' E)]; discriminate.
Qed.
Lemma value_text o v o2 o' v' o2' : Forall blank o -> Forall blank o2 -> Forall blank o' -> Forall blank o2' ->
  one_line v -> one_line v' -> o ++ v ++ o2 = o' ++ v' ++ o2' -> v = v'.
Proof.
  intros Ho Ho2 Ho' Ho2' (_ & H1 & H2) (_ & H1' & H2') H.
  assert (forall (w x : gostr), Forall blank w -> Forall blank x -> forall u, (forall a y, u = a :: y -> ~ blank a) -> w ++ u ++ x = w ++ x -> u = []) as Hx.
  { intros w x _ Hx u Hu E. apply app_inv_head in E. destruct u as [|a u]; [done|]. apply (f_equal length) in E. rewrite app_length in E. cbn in E. lia. }
  destruct v as [|a v].
  - destruct v' as [|b v']; [done|]. exfalso. cbn [app] in H.
    assert (b ∈ o ++ o2) as Hin. { rewrite H. apply elem_of_app. right. left. }
    assert (Forall blank (o ++ o2)) as Hf by (by apply Forall_app). rewrite Forall_forall in Hf. eapply H1'; [done|by apply Hf].
  - destruct v' as [|b v'].
    + exfalso. cbn [app] in H.
      assert (a ∈ o' ++ o2') as Hin. { rewrite <- H. apply elem_of_app. right. left. }
      assert (Forall blank (o' ++ o2')) as Hf by (by apply Forall_app). rewrite Forall_forall in Hf. eapply H1; [done|by apply Hf].
    + clear Hx. destruct (front_blanks o ((a :: v) ++ o2) o' ((b :: v') ++ o2')) as [_ E]; auto.
      * intros c x [= <- _]. by eapply H1.
      * intros c x [= <- _]. by eapply H1'.
      * discriminate.
      * discriminate.
      * (* the same from behind *)
        apply (f_equal (@rev ascii)) in E. rewrite !rev_app_distr in E.
        destruct (front_blanks (rev o2) (rev (a :: v)) (rev o2') (rev (b :: v'))) as [_ E']; auto.
        -- by apply Forall_rev.
        -- by apply Forall_rev.
        -- intros c x Er. apply (f_equal (@rev ascii)) in Er. rewrite rev_involutive in Er. cbn [rev] in Er. by eapply H2.
        -- intros c x Er. apply (f_equal (@rev ascii)) in Er. rewrite rev_involutive in Er. cbn [rev] in Er. by eapply H2'.
        -- intros Er. apply (f_equal (@rev ascii)) in Er. rewrite rev_involutive in Er. discriminate.
        -- intros Er. apply (f_equal (@rev ascii)) in Er. rewrite rev_involutive in Er. discriminate.
        -- apply (f_equal (@rev ascii)) in E'. by rewrite !rev_involutive in E'.
Qed.
Lemma line_one f t f' t' x x' : line_text f t -> line_text f' t' -> t ++ x = t' ++ x' -> f = f' /\ x = x'.
Proof.
  intros Hf Hf' H. destruct Hf as [n v o o2 [Hn Ht] Hv Ho Ho2], Hf' as [n' v' o' o2' [Hn' Ht'] Hv' Ho' Ho2'].
  assert (forall n v o o2, is_token n -> one_line v -> Forall blank o -> Forall blank o2 -> bare (n ++ [":"%char] ++ o ++ v ++ o2)) as Hb.
  { intros m w p q A B C D. rewrite !bare_app. split_and!; [by apply token_bare| |by apply blanks_bare|by destruct B|by apply blanks_bare].
    split; set_solver. }
  replace ((n ++ [":"%char] ++ o ++ v ++ o2 ++ line_end) ++ x) with ((n ++ [":"%char] ++ o ++ v ++ o2) ++ line_end ++ x) in H by (by rewrite <- !app_assoc).
  replace ((n' ++ [":"%char] ++ o' ++ v' ++ o2' ++ line_end) ++ x') with ((n' ++ [":"%char] ++ o' ++ v' ++ o2') ++ line_end ++ x') in H by (by rewrite <- !app_assoc).
  apply split_line in H as [H ->]; [|by apply Hb..]. split; [|done].
  cbn [app] in H. apply app_sep_inj in H as [-> H]; [|by apply token_colon..]. f_equal. eapply value_text; [exact Ho|exact Ho2|exact Ho'|exact Ho2'|done|done|done].
Qed.
Lemma line_start f t x y : line_text f t -> t ++ x = line_end ++ y -> False.
Proof.
  intros [n v o o2 [Hn Ht] _ _ _] H. destruct n as [|a n]; [done|]. cbn in H. injection H as -> _.
  apply token_bare in Ht as [Ht _]. apply Ht. left.
Qed.
Lemma lines_one fs t : lines_text fs t -> forall fs' t' x x', lines_text fs' t' -> t ++ line_end ++ x = t' ++ line_end ++ x' -> fs = fs' /\ x = x'.
Proof.
  induction 1 as [|f fs t ts Hf Hfs IH]; intros fs' t' x x' Hf' H; inversion Hf' as [|f' fs2 t2 ts2 Hf2 Hfs2]; subst.
  - cbn in H. by injection H as ->.
  - exfalso. rewrite <- app_assoc in H. symmetry in H. change ([] ++ line_end ++ x) with (line_end ++ x) in H. by eapply line_start.
  - exfalso. rewrite <- app_assoc in H. change ([] ++ line_end ++ x') with (line_end ++ x') in H. by eapply line_start.
  - rewrite <- !app_assoc in H. destruct (line_one _ _ _ _ _ _ Hf Hf2 H) as [-> H2]. destruct (IH _ _ _ _ Hfs2 H2) as [-> ->]. done.
Qed.
Lemma head_one code fs t code' fs' t' x x' : head_text code fs t -> head_text code' fs' t' -> t ++ x = t' ++ x' -> code = code' /\ fs = fs' /\ x = x'.
Proof.
  intros Hh Hh' H. destruct Hh as [v code c reason fs t Hv Hl Hc Hr Hf], Hh' as [v' code' c' reason' fs' t' Hv' Hl' Hc' Hr' Hf'].
  rewrite <- !app_assoc in H. apply app_inv_head in H. apply app_inj_1 in H as [_ H]; [|done].
  apply app_inv_head in H. apply app_inj_1 in H as [-> H]; [|congruence]. apply app_inv_head in H.
  apply split_line in H as [-> H]; [|done..]. destruct (lines_one _ _ Hf _ _ _ _ Hf' H) as [-> ->].
  destruct Hc as (_ & _ & ->), Hc' as (_ & _ & ->). done.
Qed.

(** hexadecimal numbers *)
Lemma hex_from s : forall v n, fold_left (fun v c => match v, hex_val c with Some v, Some d => Some (16 * v + d)%N | _, _ => None end) s v = Some n ->
  Forall (fun c => is_Some (hex_val c)) s.
Proof.
  induction s as [|c s IH]; intros v n H; [constructor|]. cbn in H. constructor; [|by eapply IH].
  destruct (hex_val c); [done|]. exfalso. assert (forall s, fold_left (fun v c => match v, hex_val c with Some v, Some d => Some (16 * v + d)%N | _, _ => None end) s None = @None N) as Hn.
  { induction s0; [done|]. done. }
  destruct v; rewrite Hn in H; done.
Qed.
Lemma hex_bare s n : hex_number s = Some n -> bare s.
Proof.
  intros H. destruct s as [|c s]; [done|]. apply hex_from in H. eapply bare_all; [exact H| |]; intros [? Hx]; vm_compute in Hx; discriminate.
Qed.
Lemma zero_bare : bare (L "0").
Proof. split; apply (bool_decide_eq_true _); vm_compute; reflexivity. Qed.
Lemma chunked_one b t : chunked_text b t -> forall b' t' x x', chunked_text b' t' -> t ++ x = t' ++ x' -> b = b' /\ x = x'.
Proof.
  induction 1 as [|d data s t Hd Hs Ht IH]; intros b' t' x x' Hb' H; inversion Hb' as [|d' data' s' t2 Hd' Hs' Ht']; subst.
  - rewrite <- !app_assoc in H. apply split_line in H as [_ H]; [|apply zero_bare..]. apply app_inv_head in H. done.
  - exfalso. rewrite <- !app_assoc in H. apply split_line in H as [<- _]; [|apply zero_bare|by eapply hex_bare].
    vm_compute in Hs'. injection Hs' as Hs'. destruct d'; [done|]. cbn [length] in Hs'. lia.
  - exfalso. rewrite <- !app_assoc in H. apply split_line in H as [-> _]; [|by eapply hex_bare|apply zero_bare].
    vm_compute in Hs. injection Hs as Hs. destruct d; [done|]. cbn [length] in Hs. lia.
  - rewrite <- !app_assoc in H. apply split_line in H as [-> H]; [|by eapply hex_bare..].
    rewrite Hs in Hs'. injection Hs' as Hl. apply Nat2N.inj in Hl. apply app_inj_1 in H as [-> H]; [|done].
    apply app_inv_head in H. destruct (IH _ _ _ _ Ht' H) as [-> ->]. done.
Qed.
Lemma body_one head code fs s b rest b' rest' : body_text head code fs s b rest -> body_text head code fs s b' rest' -> b = b' /\ rest = rest'.
Proof.
  intros H H'. inversion H; subst; inversion H'; subst; try done; try congruence.
  - match goal with A : chunked_text _ ?t, B : chunked_text _ ?t' |- _ => by eapply (chunked_one _ _ A _ _ _ _ B) end.
  - match goal with A : field_values (L "Content-Length") fs = [?n], B : field_values (L "Content-Length") fs = [?n'] |- _ => rewrite A in B; injection B as -> end.
    match goal with A : udecimal _ _, B : udecimal _ _ |- _ => destruct A as (_ & _ & A), B as (_ & _ & B); rewrite <- B in A; apply Nat2Z.inj in A end.
    match goal with E : _ ++ _ = _ ++ _ |- _ => apply app_inj_1 in E as [-> ->]; [done|congruence] end.
Qed.
Lemma reads_one head s m rest : reads head s m rest -> forall m' rest', reads head s m' rest' -> m = m' /\ rest = rest'.
Proof.
  induction 1 as [code fs t s b rest Hh Hc Hb|code fs t s m rest Hh Hc Hn Hr IH]; intros m' rest' H'.
  - inversion H' as [code' fs' t' s' b' r' Hh' Hc' Hb' Heq|code' fs' t' s' m2 r' Hh' Hc' Hn' Hr' Heq]; subst.
    + destruct (head_one _ _ _ _ _ _ _ _ Hh' Hh Heq) as (-> & -> & ->). destruct (body_one _ _ _ _ _ _ _ _ Hb Hb') as [-> ->]. done.
    + destruct (head_one _ _ _ _ _ _ _ _ Hh' Hh Heq) as (-> & -> & ->). done.
  - inversion H' as [code' fs' t' s' b' r' Hh' Hc' Hb' Heq|code' fs' t' s' m2 r' Hh' Hc' Hn' Hr' Heq]; subst.
    + destruct (head_one _ _ _ _ _ _ _ _ Hh' Hh Heq) as (-> & -> & ->). done.
    + destruct (head_one _ _ _ _ _ _ _ _ Hh' Hh Heq) as (-> & -> & ->). by apply IH.
Qed.
