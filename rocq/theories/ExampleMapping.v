(** A struct, requests and a file library to try the theorems on Bind2 on. *)
From Coq Require Import ZArith NArith.
From Verif Require Import Base GoStr GoStrFacts Strconv Header UtilSpec Binding BindingSpec BindingFacts BindingTop ExampleBinding
  Mapping MappingSpec MappingFacts MappingFiles MappingWalk MappingTop MappingAccept MappingEnds MappingCalls.

(** bound by the key of the field *)
Lemma texts_by (s : setter Z) tag f vals :
  seqb (tag_get (f_tag f) tag) (L "-") = false -> seqb (key_of tag f) [] = false ->
  match s with SMulti _ files => files !! key_of tag f = None | _ => True end ->
  (finds s (key_of tag f) = Some vals \/ (finds s (key_of tag f) = None /\ seqb (default_of tag f) [] = false /\ vals = [default_of tag f])) ->
  given_texts s tag f vals.
Proof.
  intros H1 H2 H3 H4. apply given_texts_eq. split.
  { intros ups Hu. apply given_files_eq in Hu as (_ & _ & _ & form & files & -> & E). congruence. }
  split; [intros K; apply skipped_eq in K; congruence|]. split; [intros K; by rewrite K in H2|].
  destruct H4 as [H4|(H4 & H5 & H6)]; [by left|right]. split; [done|]. split; [|done]. intros K. by rewrite K in H5.
Qed.
Lemma files_by form (files : gmap gostr (list Z)) tag f d ups :
  seqb (tag_get (f_tag f) tag) (L "-") = false -> seqb (key_of tag f) [] = false -> files !! key_of tag f = Some (d :: ups) ->
  given_files (SMulti form files) tag f (d :: ups).
Proof.
  intros H1 H2 H3. apply given_files_eq. split; [intros K; apply skipped_eq in K; congruence|]. split; [intros K; by rewrite K in H2|].
  split; [done|]. by exists form, files.
Qed.
Lemma not_given_by (s : setter Z) tag f : match s with SMulti _ files => default [] (files !! key_of tag f) = [] | _ => True end ->
  finds s (key_of tag f) = None -> seqb (default_of tag f) [] = true -> ~ given s tag f.
Proof.
  intros H1 H2 H3 [[vals K]|[ups K]].
  - apply given_texts_eq in K as (_ & _ & _ & [K|(_ & K & _)]); [congruence|]. by apply seqb_true in H3.
  - apply given_files_eq in K as (_ & _ & K1 & form & files & -> & K2). rewrite K2 in H1. done.
Qed.

Definition gx_files : filelib Z :=
  mkFiles (fun d => [VString []; VOpaque d; VNum 0]) (fun vs => match vs with [_; VOpaque d; _] => d | _ => 0%Z end).
Lemma gx_wf_files : wf_files bx_lib gx_files.
Proof.
  split; [done|]. intros d. cbn. apply Forall2_cons; split; [constructor|]. apply Forall2_cons; split; [by constructor|]. apply Forall2_cons; split; [constructor; vm_compute; split; congruence|constructor].
Qed.
(** struct { Name string; Age int8 `form:"age,default=7"`; Tags []uint16 `form:"tags"`; In *struct { Ok *bool };
    Pair [2]bool `form:"pair"`; hidden int `form:"age"`; Up *multipart.FileHeader `form:"up"`; Skip string `form:"-"`;
    Out *struct { N int64 `form:"n"` } } *)
Definition gx_in : list (field * gotype) := [(bx_plain (L "Ok"), TPtr TBool)].
Definition gx_out : list (field * gotype) := [(bx_field (L "N") (L "n"), TInt 64)].
Definition gx_fields : list (field * gotype) :=
  [(bx_plain (L "Name"), TString); (bx_field (L "Age") (L "age,default=7"), TInt 8);
   (bx_field (L "Tags") (L "tags"), TSlice (TUint 16)); (bx_plain (L "In"), TPtr (TStruct gx_in));
   (bx_field (L "Pair") (L "pair"), TArray 2 TBool); (mkField (L "hidden") false false [(L "form", L "age")], TInt 64);
   (bx_field (L "Up") (L "up"), TPtr TFile); (bx_field (L "Skip") (L "-"), TString);
   (bx_plain (L "Out"), TPtr (TStruct gx_out))].
Definition gx_type : gotype := TStruct gx_fields.
Definition gx_value : goval Z :=
  VStruct [VString (L "old"); VNum 1; VSlice None; VPtr None; VArray [VBool true; VBool true]; VNum 5; VPtr None; VString (L "kept"); VPtr None].
Definition gx_form : gmap gostr (list gostr) :=
  {[ L "Name" := [L "ann"; L "bob"]; L "tags" := [L "3"; L "65535"]; L "Ok" := [L "true"]; L "pair" := [L "0"; L "1"]; L "Skip" := [L "no"] ]}.
Definition gx_ups : gmap gostr (list Z) := {[ L "up" := [11; 12]%Z; L "Name" := [] ]}.
Definition gx_source : source (D := Z) := mkSource gx_form gx_form gx_ups gx_form ∅ (fun o => (o, true)) (fun o => (o, true)).
Definition gx_call : call2 Z := CRequest B2Multipart gx_source.
Definition gx_setter : setter Z := SMulti gx_form gx_ups.
Definition gx_after : goval Z :=
  VStruct [VString (L "ann"); VNum 7; VSlice (Some [VNum 3; VNum 65535]); VPtr (Some (VStruct [VPtr (Some (VBool true))]));
    VArray [VBool false; VBool true]; VNum 5; VPtr (Some (VOpaque 11%Z)); VString (L "kept"); VPtr None].
(** struct { In struct { Ok bool } } and struct { In *struct { Ok bool } } *)
Definition gx_nested : gotype := TStruct [(bx_plain (L "In"), TStruct [(bx_plain (L "Ok"), TBool)])].
Definition gx_holder : gotype := TStruct [(bx_plain (L "In"), TPtr (TStruct [(bx_plain (L "Ok"), TBool)]))].
Lemma gx_reads : reads2 gx_call gx_setter (L "form").
Proof. apply (reads2_multipart gx_source). Qed.
Lemma gx_wf : wf_type gx_type.
Proof. cbn. rewrite !elem_of_cons. tauto. Qed.
Lemma gx_no_map : ~ text_map (resolve bx_lib gx_type).
Proof. by intros [?|[?|[? ?]]]. Qed.
Lemma gx_typed : typed bx_lib gx_type gx_value.
Proof.
  constructor. repeat (apply Forall2_cons; split); try apply Forall2_nil; cbn [snd]; try constructor; try done; try (vm_compute; split; congruence).
  repeat constructor.
Qed.
Lemma gx_result : do_bind2 bx_lib gx_files 6 gx_call (Some (TPtr gx_type, VPtr (Some gx_value))) = (Some (TPtr gx_type, VPtr (Some gx_after)), BOk).
Proof. vm_compute. reflexivity. Qed.
Lemma gx_here i g u w : gx_fields !! i = Some (g, u) -> (match gx_value with VStruct vs => vs !! i | _ => None end) = Some w ->
  held bx_lib gx_setter (L "form") (resolve bx_lib gx_type) gx_value [i] g u w.
Proof.
  intros Hi Hj. eapply (place2_into _ _ _ emptyField _ _ gx_fields); [apply empty_walked|apply reach_here; by intros [? ?]|exact Hi|exact Hj|apply place2_here].
Qed.
Lemma gx_ok : held bx_lib gx_setter (L "form") (resolve bx_lib gx_type) gx_value [3; 0] (bx_plain (L "Ok")) (TPtr TBool) (VPtr None).
Proof.
  eapply (place2_into _ _ _ emptyField _ _ gx_fields _ 3); [apply empty_walked|apply reach_here; by intros [? ?]|reflexivity|reflexivity|].
  apply (place2_into _ _ _ _ _ _ gx_in [VPtr None] 0 (bx_plain (L "Ok")) (TPtr TBool) (VPtr None)); [|apply reach_nil, reach_here; by intros [? ?]|done|done|apply place2_here].
  split; [by left|]. split; [intros K; apply skipped_eq in K; done|]. right. by apply not_given_by.
Qed.
Lemma gx_out_quiet : ~ stirs bx_lib gx_files gx_setter (L "form") (bx_plain (L "Out")) (TPtr (TStruct gx_out)) (VPtr None).
Proof.
  intros K. inversion K as [? ? ? t1 v1 Hr Hb Hg|? ? ? t1 v1 fs vs i g u w Hw Hr Hin Hi Hj Hst]; subst.
  - revert Hg. by apply not_given_by.
  - apply reach_none, reach_inv in Hr as [-> ->]; [|by intros [? ?]]. inversion Hin; subst. destruct i as [|i]; [|done]. injection Hi as <- <-. injection Hj as <-.
    inversion Hst as [? ? ? t1 v1 Hr Hb Hg|? ? ? t1 v1 fs vs i g u w Hw' Hr Hin' Hi Hj Hst']; subst.
    + revert Hg. by apply not_given_by.
    + apply reach_inv in Hr as [-> ->]; [|by intros [? ?]]. inversion Hin'.
Qed.
(** struct { A int8; base }, type base struct { B bool } *)
Definition gy_fields : list (field * gotype) :=
  [(bx_plain (L "A"), TInt 8); (mkField (L "base") false true [], TStruct [(bx_plain (L "B"), TBool)])].
Definition gy_value : goval Z := VStruct [VNum 0; VStruct [VBool false]].
Lemma gy_places (s : setter Z) tag p g u w : held bx_lib s tag (TStruct gy_fields) gy_value p g u w -> f_exported g = false -> exists x, leads bx_lib u w (TStruct [(bx_plain (L "B"), TBool)]) x.
Proof.
  intros K Hx. inversion K as [|? ? ? fs vs i h u' w' p' ? ? ? Hw Hr Hi Hj Hp]; subst; [done|]. apply reach_inv in Hr as [E1 E2]; [|by intros [? ?]].
  injection E1 as ->. injection E2 as ->. destruct i as [|[|i]]; [|cbn in Hi, Hj|done].
  - injection Hi as <- <-. injection Hj as <-. inversion Hp as [|? ? ? fs vs i h u' w' p'' ? ? ? Hw' Hr Hi Hj Hp']; subst; [done|].
    apply reach_inv in Hr as [? _]; [done|by intros [? ?]].
  - injection Hi as <- <-. injection Hj as <-. inversion Hp as [|? ? ? fs vs i h u' w' p'' ? ? ? Hw' Hr Hi Hj Hp']; subst; [eexists; by apply leads_here; intros [? ?]|].
    apply reach_inv in Hr as [E1 E2]; [|by intros [? ?]]. injection E1 as ->. injection E2 as ->. destruct i as [|i]; [|done].
    injection Hi as <- <-. injection Hj as <-. inversion Hp' as [|? ? ? fs vs i h u' w' p3 ? ? ? Hw3 Hr Hi Hj Hp3]; subst; [done|].
    apply reach_inv in Hr as [? _]; [done|by intros [? ?]].
Qed.
Definition gn_next : field := mkField (L "Next") true false [].
Definition gn_value : goval Z := VStruct [VPtr None].
Lemma gn_try n acc f : f = gn_next \/ f = emptyField -> tryToSetValue bx_lib n (SForm ∅) (L "uri") acc f bx_node gn_value = (gn_value, MOk false).
Proof. by intros [-> | ->]; destruct acc, n. Qed.
Lemma gn_step n acc f : f = gn_next \/ f = emptyField -> snd (mapping bx_lib gx_files n (SForm ∅) (L "uri") settable gn_next bx_node gn_value) = MStop BDiverge ->
  snd (mapping bx_lib gx_files (S (S n)) (SForm ∅) (L "uri") acc f bx_node gn_value) = MStop BDiverge.
Proof.
  intros Hf IH. rewrite mapping_core; [|by intros [? ?]|by destruct Hf as [-> | ->]; intros K; apply skipped_eq in K].
  unfold core. rewrite gn_try by done. assert (f_anon f = false) as -> by (by destruct Hf as [-> | ->]).
  change (kind_struct bx_node) with true. cbn [andb]. change (members gx_files bx_node gn_value) with (Some ([(gn_next, TPtr (TRef (L "node")))], [VPtr (D := Z) None])).
  cbn [walk_fields]. change (negb (f_exported gn_next) && negb (f_anon gn_next)) with false. cbv iota.
  rewrite mapping_none by (intros K; by apply skipped_eq in K).
  change (resolve bx_lib (TRef (L "node"))) with bx_node. change (zero bx_lib bx_node) with gn_value.
  destruct (mapping bx_lib gx_files n _ _ settable gn_next bx_node gn_value) as [z o]. cbn [snd] in IH. subst o. reflexivity.
Qed.
Lemma gn_next_diverges n : snd (mapping bx_lib gx_files n (SForm ∅) (L "uri") settable gn_next bx_node gn_value) = MStop BDiverge.
Proof.
  induction (lt_wf n) as [n _ IH]. destruct n as [|[|n]]; [done| |].
  - vm_compute. reflexivity.
  - apply gn_step; [by left|]. apply IH. lia.
Qed.
Lemma gn_diverges n : snd (do_bind2 bx_lib gx_files n (CUri ∅) (Some (TPtr bx_node, VPtr (Some gn_value)))) = BDiverge.
Proof.
  destruct n as [|[|[|n]]]; [vm_compute; reflexivity..|].
  cbn [do_bind2]. unfold uri_Bind2, mapFormByTag. change (string_map (resolve bx_lib bx_node)) with false. cbv iota. unfold map_obj.
  pose proof (gn_step n (mkAccess (a_hidden fixed) true) emptyField (or_intror eq_refl) (gn_next_diverges n)) as K.
  remember (S (S n)) as m eqn:Em. clear Em.
  cbn [mapping]. change (seqb (tag_get (f_tag emptyField) (L "uri")) (L "-")) with false. cbv iota.
  change (resolve bx_lib bx_node) with bx_node.
  destruct (mapping bx_lib gx_files m (SForm ∅) (L "uri") (mkAccess (a_hidden fixed) true) emptyField bx_node gn_value) as [z o]. cbn [snd] in K. subst o. reflexivity.
Qed.
