(** Facts about saved uploads. *)
From Verif Require Import Base GoStr Upload.

Section Facts.
Variable may_open : fsys -> gostr -> bool.
Variable takes : gostr -> gostr -> nat * bool.

Lemma copy_cases name eof chunks : forall (fs fs' : fsys) e old perm, fs !! name = Some (mkFile old perm) ->
  Copy takes fs name chunks eof = (fs', e) ->
  exists data, fs' !! name = Some (mkFile (old ++ data) perm) /\ (forall k, k <> name -> fs' !! k = fs !! k) /\
    data `prefix_of` concat chunks /\ (e = None -> data = concat chunks /\ eof = true).
Proof.
  induction chunks as [|c chunks IH]; intros fs fs' e old perm Hf E.
  { injection E as <- <-. exists []. rewrite app_nil_r. split_and!; try done. by destruct eof. }
  destruct c as [|a c]; [by apply (IH fs fs' e old perm Hf E)|].
  cbn [Copy] in E. unfold WriteFile in E. rewrite Hf in E. cbn [fl_data fl_perm] in E.
  destruct (takes old (a :: c)) as [n ok] eqn:Et. set (m := Nat.min n (length (a :: c))) in *.
  assert (forall e', (<[name := mkFile (old ++ take m (a :: c)) perm]> fs, Some e') = (fs', e) ->
    exists data, fs' !! name = Some (mkFile (old ++ data) perm) /\ (forall k, k <> name -> fs' !! k = fs !! k) /\
      data `prefix_of` concat ((a :: c) :: chunks) /\ (e = None -> data = concat ((a :: c) :: chunks) /\ eof = true)) as Hstop.
  { intros e' K. injection K as <- <-. exists (take m (a :: c)). split_and!; [by rewrite lookup_insert|intros k Hk; by rewrite lookup_insert_ne| |done].
    change (concat ((a :: c) :: chunks)) with ((a :: c) ++ concat chunks). apply prefix_app_r. exists (drop m (a :: c)). by rewrite take_drop. }
  destruct ok; cbn [negb] in E; [|by apply Hstop in E].
  destruct (Nat.eqb_spec m (length (a :: c))) as [Em|]; cbn [negb] in E; [|by apply Hstop in E].
  rewrite Em, firstn_all in E.
  destruct (IH _ fs' e (old ++ a :: c) perm (lookup_insert _ _ _) E) as (data & H1 & H2 & H3 & H4).
  exists ((a :: c) ++ data). split_and!.
  - rewrite H1. by rewrite <- app_assoc.
  - intros k Hk. rewrite H2 by done. by rewrite lookup_insert_ne.
  - change (concat ((a :: c) :: chunks)) with ((a :: c) ++ concat chunks). by apply prefix_app.
  - intros He. destruct (H4 He) as [-> ->]. done.
Qed.
Lemma copy_all name chunks : (forall old data, takes old data = (length data, true)) -> forall (fs : fsys) old perm, fs !! name = Some (mkFile old perm) ->
  exists fs', Copy takes fs name chunks true = (fs', None).
Proof.
  intros Ht. induction chunks as [|[|a c] chunks IH]; intros fs old perm Hf; [by eexists|by apply (IH fs old perm)|].
  cbn [Copy]. unfold WriteFile. rewrite Hf. cbn [fl_data fl_perm]. rewrite Ht, Nat.min_id, Nat.eqb_refl. cbn [negb].
  eapply IH. apply lookup_insert.
Qed.
(** the permissions of the file afterwards *)
Definition perm_after (fs : fsys) (dst : gostr) : N := match fs !! dst with Some f => fl_perm f | None => 384 end.
Lemma open_cases (fs : fsys) dst :
  OpenFile may_open fs dst [OWrOnly; OCreate; OTrunc] 384 =
    if may_open fs dst then Some (<[dst := mkFile [] (perm_after fs dst)]> fs) else None.
Proof. unfold OpenFile, perm_after. destruct (may_open fs dst); [|done]. cbn [negb]. by destruct (fs !! dst). Qed.
Lemma save_cases (fs fs' : fsys) src dst e : SaveUploadedFile may_open takes fs src dst = (fs', e) ->
  (fs' = fs /\ e <> None /\ (src = None \/ may_open fs dst = false)) \/
  exists r data, src = Some r /\ may_open fs dst = true /\ fs' !! dst = Some (mkFile data (perm_after fs dst)) /\ (forall k, k <> dst -> fs' !! k = fs !! k) /\
    data `prefix_of` concat (rd_chunks r) /\ (e = None -> data = concat (rd_chunks r) /\ rd_eof r = true).
Proof.
  unfold SaveUploadedFile. destruct src as [r|]; [|intros [= <- <-]; left; auto]. rewrite open_cases.
  destruct (may_open fs dst); [|intros [= <- <-]; left; auto]. intros E.
  destruct (copy_cases _ _ _ _ _ _ [] (perm_after fs dst) (lookup_insert _ _ _) E) as (data & H1 & H2 & H3 & H4).
  right. exists r, data. split_and!; try done. intros k Hk. rewrite H2 by done. by rewrite lookup_insert_ne.
Qed.
Lemma save_all (fs : fsys) r dst : (forall old data, takes old data = (length data, true)) -> may_open fs dst = true -> rd_eof r = true ->
  exists fs', SaveUploadedFile may_open takes fs (Some r) dst = (fs', None).
Proof.
  intros Ht Ho He. unfold SaveUploadedFile. rewrite open_cases, Ho, He. eapply copy_all; [done|apply lookup_insert].
Qed.
End Facts.
