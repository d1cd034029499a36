(** Properties of saving uploaded files. *)
From Verif Require Import Base GoStr Upload UploadFacts.

(** ** C88: saved uploads *)
(** If nil is returned, the file holds exactly the uploaded bytes, whatever it held
    before; a new file can be read and written by its owner only, an old one keeps
    its permissions; no other file changes. *)
Theorem C88_saved :
  forall may_open takes (fs fs' : fsys) src dst, SaveUploadedFile may_open takes fs src dst = (fs', None) ->
  exists r, src = Some r /\ rd_eof r = true /\ (forall k, k <> dst -> fs' !! k = fs !! k) /\
    exists perm, fs' !! dst = Some (mkFile (concat (rd_chunks r)) perm) /\
      (fs !! dst = None -> perm = (6 * 8 * 8)%N) /\ (forall f, fs !! dst = Some f -> perm = fl_perm f).
Proof.
  intros may_open takes fs fs' src dst E. destruct (save_cases _ _ _ _ _ _ _ E) as [(_ & K & _)|(r & data & -> & _ & H1 & H2 & _ & H3)]; [done|].
  destruct (H3 eq_refl) as [-> He]. exists r. split_and!; try done. eexists. split; [exact H1|]. unfold perm_after.
  split; [by intros ->|by intros f ->].
Qed.
Print Assumptions C88_saved.
(** If nothing goes wrong, nil is returned. *)
Theorem C88_succeeds :
  forall (may_open : fsys -> gostr -> bool) (takes : gostr -> gostr -> nat * bool) (fs : fsys) r dst,
  (forall old data, takes old data = (length data, true)) -> may_open fs dst = true -> rd_eof r = true ->
  exists fs', SaveUploadedFile may_open takes fs (Some r) dst = (fs', None).
Proof. intros may_open takes fs r dst. apply save_all. Qed.
Print Assumptions C88_succeeds.
(** If there is an error: an upload or a destination that cannot be opened leaves
    everything as it was; otherwise the file holds a beginning of the upload. *)
Theorem C88_failed_partial :
  forall may_open takes (fs fs' : fsys) src dst e, SaveUploadedFile may_open takes fs src dst = (fs', Some e) ->
  (forall k, k <> dst -> fs' !! k = fs !! k) /\
  ((src = None \/ may_open fs dst = false) -> fs' = fs) /\
  (forall r, src = Some r -> may_open fs dst = true -> exists data perm, fs' !! dst = Some (mkFile data perm) /\ data `prefix_of` concat (rd_chunks r)).
Proof.
  intros may_open takes fs fs' src dst e E. destruct (save_cases _ _ _ _ _ _ _ E) as [(-> & _ & K)|(r & data & -> & Ho & H1 & H2 & H3 & _)].
  - split_and!; try done. intros r -> Ho. destruct K; congruence.
  - split_and!; try done; [intros [K|K]; congruence|]. intros r' [= <-] _. eauto.
Qed.
Print Assumptions C88_failed_partial.
(** So a failed save destroys what the destination held. *)
Theorem C88_refuted :
  exists may_open takes (fs fs' : fsys) src dst f e, SaveUploadedFile may_open takes fs src dst = (fs', Some e) /\
    fs !! dst = Some f /\ fs' !! dst <> Some f.
Proof.
  set (takes := fun old data : gostr => (3 - length old, length old + length data <=? 3)).
  set (fs := {[ L "a" := mkFile (L "old") 420 ]} : fsys). set (up := Some (mkReader [L "ne"; L "wer"] true)).
  exists (fun _ _ => true), takes, fs, (fst (SaveUploadedFile (fun _ _ => true) takes fs up (L "a"))), up, (L "a"), (mkFile (L "old") 420), ErrWrite.
  split_and!; [|vm_compute; reflexivity|vm_compute; discriminate].
  transitivity (fst (SaveUploadedFile (fun _ _ => true) takes fs up (L "a")), snd (SaveUploadedFile (fun _ _ => true) takes fs up (L "a"))); [apply surjective_pairing|].
  f_equal.
Qed.
Print Assumptions C88_refuted.
(** an upload that is read in two pieces, over an old file and as a new one; and one
    that breaks off *)
Example C88_case :
  let fs := ({[ L "a" := mkFile (L "older text") 420; L "b" := mkFile (L "b") 256 ]} : fsys) in
  let all := fun _ data : gostr => (length data, true) in
  let save := fun r dst => let '(fs', e) := SaveUploadedFile (fun _ dst => negb (seqb dst (L "b"))) all fs (Some r) dst in (fs' !! dst, e) in
  save (mkReader [L "ne"; []; L "w"] true) (L "a") = (Some (mkFile (L "new") 420), None) /\
  save (mkReader [L "ne"; []; L "w"] true) (L "c") = (Some (mkFile (L "new") 384), None) /\
  save (mkReader [L "ne"] false) (L "c") = (Some (mkFile (L "ne") 384), Some ErrRead) /\
  save (mkReader [L "ne"] true) (L "b") = (Some (mkFile (L "b") 256), Some (ErrOpen (L "b"))).
Proof. split_and!; vm_compute; reflexivity. Qed.
