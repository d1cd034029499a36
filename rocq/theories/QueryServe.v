(** Forms behind handlers. *)
From Coq Require Import ZArith NArith.
From Verif Require Import Base GoStr GoStrFacts Tree Header Router Ctx TraceSpec Engine EngineSpec ServeTop ServeThms CallSpec HttpFacts Getters GetterSpec GetterFacts
  BodySpec RequestSpec RequestFacts UtilSpec NetQuery QuerySpec QueryFacts.
Local Open Scope Z_scope.

Lemma holds_filled f ps : holds f ps -> filled f.
Proof. intros H name E. rewrite (H name) in E. by destruct (values_of name ps). Qed.
Lemma trimmed_all vs : Forall2 trimmed vs (map trim_space vs).
Proof. induction vs as [|v vs IH]; [constructor|]. constructor; [apply trim_space_trimmed|done]. Qed.

(** ** A form that is parsed by a getter *)
Section Parse.
Context {A V : Type}.
Variable sniff : gostr -> gostr.
Variable media : gostr -> gostr * bool.
Variable read_form : gostr -> gostr * bool -> option values * gostr.
Lemma parsed_by X (g : form -> X) next (k : X -> prog V) (x : ctxobj A V) c f rest :
  x_parsed x = false ->
  net_form media read_form (is_multipart (cn_req c)) (cn_req c) (unread (cn_body c)) = (f, true, rest) ->
  exists x' c', cn_form c' = Some f /\ cn_rw c' = cn_rw c /\
    pexec sniff (net_form media read_form) next (q_prog g k) x c = pexec sniff (net_form media read_form) next (k (g (Some f))) x' c'.
Proof.
  intros Hp Hf. change (unread (cn_body c)) with (bd_all (cn_body c)) in Hf.
  eexists. eexists. split; [|split]; cycle 2.
  - unfold q_prog. cbn [pexec]. unfold call at 1. cbn [do_op]. rewrite Hp, Hf. cbn. reflexivity.
  - done.
  - done.
Qed.
Lemma parse_fails X (g : form -> X) next (k : X -> prog V) (x : ctxobj A V) c f rest :
  x_parsed x = false ->
  net_form media read_form (is_multipart (cn_req c)) (cn_req c) (unread (cn_body c)) = (f, false, rest) ->
  exists v x' c', cn_form c' = Some f /\ cn_rw c' = cn_rw c /\ x_parsed x' = true /\
    pexec sniff (net_form media read_form) next (q_prog g k) x c = (EThrow (Some v), (x', c')).
Proof.
  intros Hp Hf. change (unread (cn_body c)) with (bd_all (cn_body c)) in Hf.
  eexists _, _, _. split; [|split; [|split]]; cycle 3.
  - unfold q_prog. cbn [pexec]. unfold call at 1. cbn [do_op]. rewrite Hp, Hf. cbn. reflexivity.
  - done.
  - done.
  - done.
Qed.
End Parse.

(** ** The log of a request *)
Section Log.
Context {V : Type}.
Variable parse_form : bool -> request -> gostr * bool -> values * bool * gostr.
Lemma inputs_snoc r body (l : list (event V)) e : inputs parse_form r body (l ++ [e]) = in_step parse_form r (inputs parse_form r body l) e.
Proof. unfold inputs. by rewrite fold_left_app. Qed.
(** a form in the log is the result of the first parsing *)
Lemma form_parsed r body (l : list (event V)) f : snd (inputs parse_form r body l) = Some f ->
  exists l0 a l1, l = l0 ++ EvCall OParseForm a :: l1 /\ Forall (fun e => ~ parses e) l0 /\
    f = fst (fst (parse_form (is_multipart r) r (unread (fst (inputs parse_form r body l0))))).
Proof.
  induction l as [|e l IH] using rev_ind; [done|]. rewrite inputs_snoc. intros H.
  destruct (snd (inputs parse_form r body l)) as [f'|] eqn:E.
  - assert (f' = f) as ->.
    { destruct (inputs parse_form r body l) as [[data how] fo] eqn:Ei. cbn [snd] in E. subst fo.
      destruct e as [| | |[] ?| |]; cbn in H; congruence. }
    destruct IH as (l0 & a & l1 & -> & H0 & Hf); [done|]. exists l0, a, (l1 ++ [e]). by rewrite <- app_assoc.
  - assert (exists a, e = EvCall OParseForm a) as [a ->].
    { destruct (inputs parse_form r body l) as [[data how] fo] eqn:Ei. cbn [snd] in E. subst fo.
      destruct e as [| | |[] ?| |]; cbn in H; try congruence. by eexists. }
    exists l, a, []. split; [done|]. split.
    + apply Forall_forall. intros e' He' Hp. apply elem_of_list_split in He' as (m1 & m2 & ->). clear IH H.
      assert (forall (m : list (event V)) st, is_Some (snd st) -> is_Some (snd (fold_left (in_step parse_form r) m st))) as Hkeep.
      { induction m as [|e0 m IHm]; intros [[data how] fo] [f0 Hs]; cbn [snd] in Hs; subst fo; [by eexists|]. cbn [fold_left]. apply IHm.
        destruct e0 as [| | |[] ?| |]; cbn; try (by eexists). }
      unfold inputs in E. rewrite fold_left_app in E. cbn [fold_left] in E.
      match type of E with snd (fold_left _ m2 ?st) = None => destruct (Hkeep m2 st) as [f0 Hf0]; [|congruence] end.
      destruct e' as [| | |[] a'| |] ; try done. destruct (fold_left (in_step parse_form r) m1 (body, None)) as [[data how] fo]. cbn.
      destruct fo; [by eexists|]. destruct (parse_form _ _ _) as [[f0 ?] ?]. by eexists.
    + destruct (inputs parse_form r body l) as [[data how] fo] eqn:Ei. cbn [snd] in E. subst fo. cbn in H.
      unfold unread. cbn [fst bd_data bd_feed]. destruct (parse_form _ _ _) as [[f0 ?] ?]. cbn in *. congruence.
Qed.
(** the body is as it arrived when no call before has to do with it *)
Lemma body_untouched r body (l : list (event V)) : Forall (fun e => ~ touches true e /\ ~ rebodies e) l ->
  inputs parse_form r body l = (body, None).
Proof.
  induction l as [|e l IH] using rev_ind; [done|]. intros H. apply Forall_app in H as [H He]. rewrite inputs_snoc, IH by done.
  apply Forall_inv in He as [H1 H2]. destruct body as [data how]. destruct e as [| | |[] ?| |]; cbn in *; try done; tauto.
Qed.
End Log.
