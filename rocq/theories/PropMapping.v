(** Properties of the Bind2 methods of the binders. *)
From Coq Require Import ZArith NArith.
From Verif Require Import Base GoStr Strconv Header UtilSpec StrconvFacts Binding BindingSpec BindingFacts BindingMore BindingTop ExampleBinding
  Mapping MappingSpec MappingFacts MappingFiles MappingWalk MappingTop MappingAccept MappingEnds MappingCalls MappingValue ExampleMapping.

(** ** C71: texts *)
(** On success every field that texts belong to (values of its key, or else its
    default) holds what they stand for, at any depth, through pointers that were
    nil or not.  Numbers that do not fit, and texts that stand for nothing, are
    never stored: the call fails. *)
Theorem C71_texts :
  forall D (G : golib D) (H : filelib D) n c s tag e v v' p g u w t' x vals,
  wf_lib G -> wf_files G H -> reads2 c s tag -> ~ text_map (resolve G e) -> wf_type (resolve G e) -> typed G (resolve G e) v ->
  held G s tag (resolve G e) v p g u w -> reach G u w t' x -> binds g t' -> given_texts s tag g vals ->
  do_bind2 G H n c (Some (TPtr e, VPtr (Some v))) = (Some (TPtr e, VPtr (Some v')), BOk) ->
  exists w' a, value_at2 v' p = Some w' /\ leads G u w' t' a /\ bears G g t' x vals a.
Proof. intros D G H n c s tag e v v' p g u w t' x vals. apply bind2_texts. Qed.
Print Assumptions C71_texts.
(** What texts stand for is determined by the field, its old value and the texts. *)
Theorem C71_determined :
  forall D (G : golib D) f t x vals a a', wf_lib G -> wf_type t -> typed G t x -> bears G f t x vals a -> bears G f t x vals a' -> a = a'.
Proof. intros D G f t x vals a a'. apply bears_unique. Qed.
Print Assumptions C71_determined.
(** So a small integer holds the number of its first text, which is in range. *)
Corollary C71_numbers :
  forall D (G : golib D) (H : filelib D) n c s tag e v v' p g w k vals,
  wf_lib G -> wf_files G H -> reads2 c s tag -> ~ text_map (resolve G e) -> wf_type (resolve G e) -> typed G (resolve G e) v ->
  held G s tag (resolve G e) v p g (TInt k) w -> open_field g -> given_texts s tag g vals ->
  do_bind2 G H n c (Some (TPtr e, VPtr (Some v))) = (Some (TPtr e, VPtr (Some v')), BOk) ->
  exists z, value_at2 v' p = Some (VNum z) /\ number (hd [] vals) z /\ fits_int k z.
Proof.
  intros D G H n c s tag e v v' p g w k vals H1 H2 H3 H4 H5 H6 H7 H8 H9 H10.
  destruct (C71_texts D G H n c s tag e v v' p g (TInt k) w (TInt k) w vals) as (w' & a & Hv & Hl & Hb); try done.
  - apply reach_here. by intros [? ?].
  - split; [done|]. right. by intros [[? ?]|[?|?]].
  - inversion Hl; subst. inversion Hb as [? ? ? ? Hr| |]; subst. inversion Hr as [? ? ? z Hn Hf| | | | | | |? ? ? ? K]; subst; [eauto|done].
Qed.
Print Assumptions C71_numbers.
Example C71_example :
  do_bind2 bx_lib gx_files 6 gx_call (Some (TPtr gx_type, VPtr (Some gx_value))) = (Some (TPtr gx_type, VPtr (Some gx_after)), BOk) /\
  wf_files bx_lib gx_files /\ reads2 gx_call gx_setter (L "form") /\ ~ text_map gx_type /\ typed bx_lib gx_type gx_value /\ wf_type gx_type /\
  (* by its own name, through two nil pointers *)
  held bx_lib gx_setter (L "form") gx_type gx_value [3; 0]%nat (bx_plain (L "Ok")) (TPtr TBool) (VPtr None) /\
  given_texts gx_setter (L "form") (bx_plain (L "Ok")) [L "true"] /\
  value_at2 gx_value [3; 0]%nat = None /\ value_at2 gx_after [3; 0]%nat = Some (VPtr (Some (VBool true))) /\
  (* the default *)
  held bx_lib gx_setter (L "form") gx_type gx_value [1]%nat (bx_field (L "Age") (L "age,default=7")) (TInt 8) (VNum 1) /\
  given_texts gx_setter (L "form") (bx_field (L "Age") (L "age,default=7")) [L "7"] /\
  (* an array *)
  given_texts gx_setter (L "form") (bx_field (L "Pair") (L "pair")) [L "0"; L "1"] /\
  (* a number that does not fit *)
  snd (do_bind2 bx_lib gx_files 6 (CUri {[ L "A" := [L "128"] ]}) (Some (TPtr (TStruct [(bx_plain (L "A"), TInt 8)]), VPtr (Some (VStruct [VNum 0]))))) = BErr (ENum ErrRange).
Proof.
  split; [apply gx_result|]. split; [apply gx_wf_files|]. split; [apply gx_reads|]. split; [apply gx_no_map|]. split; [apply gx_typed|]. split; [apply gx_wf|].
  split; [apply gx_ok|]. split; [apply texts_by; try (vm_compute; reflexivity); left; vm_compute; reflexivity|].
  split; [reflexivity|]. split; [reflexivity|]. split; [by apply gx_here|].
  split; [apply texts_by; try (vm_compute; reflexivity); right; vm_compute; done|].
  split; [apply texts_by; try (vm_compute; reflexivity); left; vm_compute; reflexivity|]. vm_compute. reflexivity.
Qed.

(** ** C72: uploaded files *)
(** Files uploaded under the key of a field take precedence over texts; on success
    the field holds them: the first one in a file header or a pointer to one, all
    of them, in order, in a slice or in an array of just that length. *)
Theorem C72_files :
  forall D (G : golib D) (H : filelib D) n c s tag e v v' p g u w t' x ups,
  wf_lib G -> wf_files G H -> reads2 c s tag -> ~ text_map (resolve G e) -> wf_type (resolve G e) -> typed G (resolve G e) v ->
  held G s tag (resolve G e) v p g u w -> reach G u w t' x -> binds g t' -> given_files s tag g ups ->
  do_bind2 G H n c (Some (TPtr e, VPtr (Some v))) = (Some (TPtr e, VPtr (Some v')), BOk) ->
  exists w' a, value_at2 v' p = Some w' /\ leads G u w' t' a /\ stores G t' ups a.
Proof. intros D G H n c s tag e v v' p g u w t' x ups. apply bind2_files. Qed.
Print Assumptions C72_files.
Theorem C72_determined : forall D (G : golib D) t ups a a', stores G t ups a -> stores G t ups a' -> a = a'.
Proof. intros D G t ups a a' Ha Hb. by apply (stores_unique G t ups). Qed.
Print Assumptions C72_determined.
Example C72_example :
  held bx_lib gx_setter (L "form") gx_type gx_value [6]%nat (bx_field (L "Up") (L "up")) (TPtr TFile) (VPtr None) /\
  reach bx_lib (TPtr TFile) (VPtr None) TFile (VOpaque 0%Z) /\ binds (bx_field (L "Up") (L "up")) TFile /\
  given_files gx_setter (L "form") (bx_field (L "Up") (L "up")) [11; 12]%Z /\
  value_at2 gx_after [6]%nat = Some (VPtr (Some (VOpaque 11%Z))) /\ stores bx_lib TFile [11; 12]%Z (VOpaque 11%Z) /\
  stores bx_lib (TSlice (TPtr TFile)) [11; 12]%Z (VSlice (Some [VPtr (Some (VOpaque 11%Z)); VPtr (Some (VOpaque 12%Z))])) /\
  (forall a, ~ stores bx_lib (TArray 3 TFile) [11; 12]%Z a) /\ (forall a, ~ stores bx_lib TString [11; 12]%Z a).
Proof.
  split_and!.
  - by apply gx_here.
  - by apply reach_nil, reach_here; intros [? ?].
  - split; [by left|by left].
  - apply files_by; vm_compute; reflexivity.
  - reflexivity.
  - constructor.
  - constructor. constructor; [by constructor|]. constructor; [by constructor|constructor].
  - intros a K. inversion K as [| | |? ? ? ? K']; subst. discriminate.
  - intros a K. inversion K.
Qed.

(** ** C73: what is left alone *)
(** A field keeps its value, whether the call succeeds or not, if nothing in the
    request belongs to it or to a field below it. *)
Theorem C73_untouched :
  forall D (G : golib D) (H : filelib D) n c s tag e v out o p g u w,
  wf_files G H -> reads2 c s tag -> ~ text_map (resolve G e) ->
  held G s tag (resolve G e) v p g u w -> ~ stirs G H s tag g u w ->
  do_bind2 G H n c (Some (TPtr e, VPtr (Some v))) = (out, o) ->
  exists v', out = Some (TPtr e, VPtr (Some v')) /\
    (value_at2 v' p = Some w \/ value_at2 v' p = None) /\ (value_at2 v p <> None -> value_at2 v' p = Some w).
Proof. intros D G H n c s tag e v out o p g u w. apply bind2_left. Qed.
Print Assumptions C73_untouched.
(** Nothing belongs to a field that is unexported (and not embedded) or has the tag "-". *)
Theorem C73_excluded :
  forall D (G : golib D) (H : filelib D) s tag g u w, ~ open_field g \/ skipped tag g -> ~ stirs G H s tag g u w.
Proof. intros D G H s tag g u w [Hn|Hs] K; [by apply stirs_open in K|by apply stirs_not_skipped in K]. Qed.
Print Assumptions C73_excluded.
(** If nothing belongs to any field the value is the same as before. *)
Theorem C73_nothing :
  forall D (G : golib D) (H : filelib D) n c s tag e v out o,
  wf_files G H -> reads2 c s tag -> ~ text_map (resolve G e) -> ~ stirs G H s tag emptyField (resolve G e) v ->
  do_bind2 G H n c (Some (TPtr e, VPtr (Some v))) = (out, o) -> out = Some (TPtr e, VPtr (Some v)).
Proof. intros D G H n c s tag e v out o. apply bind2_nothing. Qed.
Print Assumptions C73_nothing.
(** On success a nil pointer is replaced if and only if something belongs to it or
    to a field below it. *)
Theorem C73_nil :
  forall D (G : golib D) (H : filelib D) n c s tag e v v' p g e',
  wf_files G H -> reads2 c s tag -> ~ text_map (resolve G e) ->
  held G s tag (resolve G e) v p g (TPtr e') (VPtr None) ->
  do_bind2 G H n c (Some (TPtr e, VPtr (Some v))) = (Some (TPtr e, VPtr (Some v')), BOk) ->
  (exists x, value_at2 v' p = Some (VPtr (Some x))) <-> stirs G H s tag g (TPtr e') (VPtr None).
Proof. intros D G H n c s tag e v v' p g e'. apply bind2_nil. Qed.
Print Assumptions C73_nil.
Example C73_example :
  held bx_lib gx_setter (L "form") gx_type gx_value [8]%nat (bx_plain (L "Out")) (TPtr (TStruct gx_out)) (VPtr None) /\
  ~ stirs bx_lib gx_files gx_setter (L "form") (bx_plain (L "Out")) (TPtr (TStruct gx_out)) (VPtr None) /\
  value_at2 gx_after [8]%nat = Some (VPtr None) /\
  held bx_lib gx_setter (L "form") gx_type gx_value [3]%nat (bx_plain (L "In")) (TPtr (TStruct gx_in)) (VPtr None) /\
  stirs bx_lib gx_files gx_setter (L "form") (bx_plain (L "In")) (TPtr (TStruct gx_in)) (VPtr None) /\
  ~ open_field (mkField (L "hidden") false false [(L "form", L "age")]) /\ skipped (L "form") (bx_field (L "Skip") (L "-")) /\
  gx_form !! L "Skip" = Some [L "no"] /\ value_at2 gx_after [7]%nat = Some (VString (L "kept")).
Proof.
  split_and!; try done; try (by apply gx_here).
  - apply gx_out_quiet.
  - pose proof (C73_nil Z bx_lib gx_files 6 gx_call gx_setter (L "form") gx_type gx_value gx_after [3]%nat (bx_plain (L "In")) (TStruct gx_in)
      gx_wf_files gx_reads gx_no_map (gx_here 3 _ _ _ eq_refl eq_refl) gx_result) as K. apply K. eexists. vm_compute. reflexivity.
  - by intros [?|?].
  - by apply skipped_eq.
Qed.

(** ** C74: which calls succeed *)
(** If unexported embedded fields need no allocation, a call that ends does not
    panic; it fails exactly if some text or file does not suit its field, and
    otherwise ends with the verdict of the validator. *)
Theorem C74_partial :
  forall D (G : golib D) (H : filelib D) n c s tag e v out o,
  wf_lib G -> wf_files G H -> reads2 c s tag -> ~ text_map (resolve G e) -> wf_type (resolve G e) -> typed G (resolve G e) v ->
  all_settable G H s tag emptyField (resolve G e) v ->
  do_bind2 G H n c (Some (TPtr e, VPtr (Some v))) = (out, o) -> o <> BDiverge ->
  exists v', out = Some (TPtr e, VPtr (Some v')) /\
    (((forall p g u w, held G s tag (resolve G e) v p g u w -> suits G H s tag g u w) /\ then_validated G out (out, o)) \/
     (~ (forall p g u w, held G s tag (resolve G e) v p g u w -> suits G H s tag g u w) /\ exists err, o = BErr err)).
Proof. intros D G H n c s tag e v out o. apply bind2_calm. Qed.
Print Assumptions C74_partial.
(** An unexported embedded nil pointer to a struct with a field that is bound panics. *)
Theorem C74_refuted :
  exists (G : golib Z) (H : filelib Z) t v m, wf_lib G /\ wf_files G H /\ wf_type t /\ typed G t v /\
    t = TStruct [(mkField (L "base") false true [], TPtr (TStruct [(bx_plain (L "B"), TBool)]))] /\ m = {[ L "B" := [L "true"] ]} /\
    exists n msg, do_bind2 G H n (CUri m) (Some (TPtr t, VPtr (Some v))) = (Some (TPtr t, VPtr (Some v)), BPanic msg).
Proof.
  exists bx_lib, gx_files, (TStruct [(mkField (L "base") false true [], TPtr (TStruct [(bx_plain (L "B"), TBool)]))]), (VStruct [VPtr None]), {[ L "B" := [L "true"] ]}.
  split_and!; try done.
  - apply gx_wf_files.
  - constructor. constructor; constructor.
  - exists 6%nat. eexists. vm_compute. reflexivity.
Qed.
Print Assumptions C74_refuted.
Example C74_example :
  wf_type (TStruct gy_fields) /\ typed bx_lib (TStruct gy_fields) gy_value /\
  (forall (s : setter Z) tag, all_settable bx_lib gx_files s tag emptyField (TStruct gy_fields) gy_value) /\
  do_bind2 bx_lib gx_files 6 (CUri {[ L "A" := [L "-5"]; L "B" := [L "T"] ]}) (Some (TPtr (TStruct gy_fields), VPtr (Some gy_value))) =
    (Some (TPtr (TStruct gy_fields), VPtr (Some (VStruct [VNum (-5); VStruct [VBool true]]))), BOk) /\
  do_bind2 bx_lib gx_files 6 (CUri {[ L "A" := [L "-5"]; L "B" := [L "yes"] ]}) (Some (TPtr (TStruct gy_fields), VPtr (Some gy_value))) =
    (Some (TPtr (TStruct gy_fields), VPtr (Some (VStruct [VNum (-5); VStruct [VBool false]]))), BErr EBool).
Proof.
  split_and!; try (vm_compute; reflexivity).
  - cbn. rewrite !elem_of_cons. tauto.
  - constructor. repeat (apply Forall2_cons; split); try constructor; try (vm_compute; split; congruence). constructor; [constructor|constructor].
  - intros s tag p g u w K Hx _. destruct (gy_places s tag p g u w K Hx) as [x Hl]. exists (TStruct [(bx_plain (L "B"), TBool)]), x. split; [done|left; by eexists].
Qed.

(** ** C75: calls end *)
(** A type that does not contain itself has a bound on the depth of the recursion,
    whatever the value and the request are; validation of a value of its type ends too. *)
Theorem C75_ends_partial :
  forall D (G : golib D) (H : filelib D) e, well_founded_type G (resolve G e) ->
  exists n0, forall n c s tag v out o, n0 <= n -> reads2 c s tag -> ~ text_map (resolve G e) ->
  do_bind2 G H n c (Some (TPtr e, VPtr (Some v))) = (out, o) -> o = BDiverge -> validate G out = Diverge.
Proof. intros D G H e. apply bind2_ends. Qed.
Print Assumptions C75_ends_partial.
Theorem C75_validation :
  forall D (G : golib D) t v, typed G t v -> validate G (Some (t, v)) <> Diverge.
Proof. intros D G t v. apply validate_ends. Qed.
Print Assumptions C75_validation.
(** A struct with a nil pointer to its own type, whose field is looked into, is never
    bound successfully, whatever the request is. *)
Theorem C75_self_refuted :
  forall D (G : golib D) (H : filelib D) n c s tag e v out fs i vs,
  reads2 c s tag -> resolve G e = TStruct fs -> self_containing G s tag fs i -> v = VStruct vs -> vs !! i = Some (VPtr None) ->
  do_bind2 G H n c (Some (TPtr e, VPtr (Some v))) <> (out, BOk).
Proof. intros D G H n c s tag e v out fs i vs. apply bind2_self. Qed.
Print Assumptions C75_self_refuted.
(** type node struct { Next *node } *)
Theorem C75_refuted :
  exists (G : golib Z) (H : filelib Z) t v, wf_lib G /\ wf_files G H /\ wf_type t /\ typed G t v /\
    t = TStruct [(mkField (L "Next") true false [], TPtr (TRef (L "node")))] /\ resolve G (TRef (L "node")) = t /\ v = VStruct [VPtr None] /\
    forall n, snd (do_bind2 G H n (CUri ∅) (Some (TPtr t, VPtr (Some v)))) = BDiverge.
Proof.
  exists bx_lib, gx_files, bx_node, gn_value. split_and!; try done.
  - apply gx_wf_files.
  - constructor. constructor; constructor.
  - apply gn_diverges.
Qed.
Print Assumptions C75_refuted.
Example C75_example :
  well_founded_type bx_lib (TStruct gy_fields) /\ self_containing (D := Z) bx_lib (SForm ∅) (L "uri") [(gn_next, TPtr (TRef (L "node")))] 0 /\
  ~ well_founded_type bx_lib bx_node.
Proof.
  split_and!.
  - assert (forall t, t = TBool \/ t = TInt 8 -> Acc (part_of bx_lib) t) as Hl by (intros t [-> | ->]; constructor; intros t' K; inversion K).
    constructor. intros t' K. inversion K as [? i ? ? Hi| | |]; subst. destruct i as [|[|i]]; [injection Hi as <- <-; auto|injection Hi as <- <-|done].
    constructor. intros t' K'. inversion K' as [? i ? ? Hi| | |]; subst. destruct i as [|i]; [injection Hi as <- <-; auto|done].
  - exists gn_next, (TRef (L "node")). split_and!; try done. split; [by left|]. split; [intros K; by apply skipped_eq in K|]. right. by apply not_given_by.
  - assert (forall t, Acc (part_of bx_lib) t -> t <> bx_node /\ t <> TPtr (TRef (L "node"))) as K.
    { induction 1 as [t _ IH]. split; intros ->.
      - destruct (IH (TPtr (TRef (L "node")))) as [_ Hn]; [by apply (part_field _ _ 0 gn_next)|done].
      - destruct (IH bx_node) as [Hn _]; [apply (part_ptr bx_lib (TRef (L "node")))|done]. }
    intros Ha. by destruct (K _ Ha).
Qed.

(** ** C76: maps *)
(** A map from strings to lists of strings, or a pointer to one, gains all entries of
    the form; those under other keys stay. *)
Theorem C76_lists :
  forall D (G : golib D) (H : filelib D) n c form t v v' m, fills2 c form ->
  map_in G t v v' TMapL (VMapL (Some m)) (VMapL (Some (form ∪ m))) ->
  do_bind2 G H n c (Some (t, v)) = (Some (t, v'), BOk).
Proof. intros D G H n c form t v v' m. apply call_map_all. Qed.
Print Assumptions C76_lists.
(** A map from strings to strings gains the last value of each key of the form. *)
Theorem C76_last :
  forall D (G : golib D) (H : filelib D) n c form t v m, fills2 c form -> (forall k, form !! k <> Some []) ->
  (forall m', exists v', map_in G t v v' TMapS (VMapS (Some m)) (VMapS (Some m'))) ->
  exists m' v', map_in G t v v' TMapS (VMapS (Some m)) (VMapS (Some m')) /\ do_bind2 G H n c (Some (t, v)) = (Some (t, v'), BOk) /\
  forall k, (forall l x, form !! k = Some (l ++ [x]) -> m' !! k = Some x) /\ (form !! k = None -> m' !! k = m !! k).
Proof. intros D G H n c form t v m. apply call_map_last. Qed.
Print Assumptions C76_last.
Example C76_example :
  fills2 (D := Z) (CUri {[ L "id" := [L "4"; L "5"] ]}) {[ L "id" := [L "4"; L "5"] ]} /\
  (forall m', exists v', map_in (D := Z) bx_lib (TPtr TMapS) (VPtr (Some (VMapS (Some {[ L "z" := L "0" ]})))) v' TMapS (VMapS (Some {[ L "z" := L "0" ]})) (VMapS (Some m'))) /\
  do_bind2 bx_lib gx_files 0 (CUri {[ L "id" := [L "4"; L "5"] ]}) (Some (TPtr TMapS, VPtr (Some (VMapS (Some {[ L "z" := L "0" ]}))))) =
    (Some (TPtr TMapS, VPtr (Some (VMapS (Some {[ L "id" := L "5"; L "z" := L "0" ]})))), BOk) /\
  do_bind2 bx_lib gx_files 0 (CUri {[ L "id" := [L "4"; L "5"] ]}) (Some (TMapL, VMapL (Some {[ L "z" := [L "0"] ]}))) =
    (Some (TMapL, VMapL (Some {[ L "id" := [L "4"; L "5"]; L "z" := [L "0"] ]})), BOk).
Proof.
  split_and!; [constructor| |vm_compute; reflexivity..].
  intros m'. eexists. right. exists TMapS. split_and!; reflexivity.
Qed.

(** ** C77: targets that cannot be filled *)
(** A nil pointer panics, also if nothing would be bound. *)
Theorem C77_nil_refuted :
  forall D (G : golib D) (H : filelib D) n c form e, fills2 c form ->
  exists msg, do_bind2 G H n c (Some (TPtr e, VPtr None)) = (Some (TPtr e, VPtr None), BPanic msg).
Proof. intros D G H n c form e. apply nil_panics. Qed.
Print Assumptions C77_nil_refuted.
(** A nil map panics if the form is not empty. *)
Theorem C77_nil_map_refuted :
  forall D (G : golib D) (H : filelib D) n c form t v, fills2 c form -> form <> ∅ ->
  map_in G t v v TMapS (VMapS None) (VMapS None) \/ map_in G t v v TMapL (VMapL None) (VMapL None) ->
  exists msg, do_bind2 G H n c (Some (t, v)) = (Some (t, v), BPanic msg).
Proof. intros D G H n c form t v. apply nil_map. Qed.
Print Assumptions C77_nil_map_refuted.
(** A value that is not passed through a pointer is not reported as bound if
    anything in it, at any depth of structs in structs, would have to be written:
    a field that texts or files belong to, or a nil pointer with something bound
    below it. *)
Theorem C77_value_partial :
  forall D (G : golib D) (H : filelib D) n c s tag t v g u w out, wf_files G H -> reads2 c s tag -> ~ text_map t -> ~ pointer t -> typed G t v ->
  copied H s tag emptyField t v g u w -> must_write G H s tag g u w ->
  do_bind2 G H n c (Some (t, v)) <> (out, BOk).
Proof. intros D G H n c s tag t v g u w out. apply value_fails. Qed.
Print Assumptions C77_value_partial.
(** Otherwise it is treated as if it was passed through a pointer: what non-nil
    pointers in it lead to is filled. *)
Theorem C77_through_partial :
  forall D (G : golib D) (H : filelib D) n c s tag e v v' o, reads2 c s tag -> ~ text_map (resolve G e) -> ~ pointer (resolve G e) ->
  (forall g u w, copied H s tag emptyField (resolve G e) v g u w -> ~ must_write G H s tag g u w) ->
  do_bind2 G H (S n) c (Some (TPtr e, VPtr (Some v))) = (Some (TPtr e, VPtr (Some v')), o) ->
  do_bind2 G H n c (Some (resolve G e, v)) = (Some (resolve G e, v'), o).
Proof. intros D G H n c s tag e v v' o. apply value_same. Qed.
Print Assumptions C77_through_partial.
Example C77_example :
  reads2 gx_call gx_setter (L "form") /\ typed bx_lib gx_nested (VStruct [VStruct [VBool false]]) /\
  copied gx_files gx_setter (L "form") emptyField gx_nested (VStruct [VStruct [VBool false]]) (bx_plain (L "Ok")) TBool (VBool false) /\
  must_write bx_lib gx_files gx_setter (L "form") (bx_plain (L "Ok")) TBool (VBool false) /\
  (exists msg, snd (do_bind2 bx_lib gx_files 6 gx_call (Some (gx_nested, VStruct [VStruct [VBool false]]))) = BPanic msg).
Proof.
  split_and!; [apply gx_reads|repeat constructor| | |eexists; vm_compute; reflexivity].
  - eapply (copied_into _ _ _ _ _ _ _ _ 0 (bx_plain (L "In")) (TStruct [(bx_plain (L "Ok"), TBool)]) (VStruct [VBool false]));
      [apply empty_walked|constructor|done|done|].
    eapply (copied_into _ _ _ _ _ _ _ _ 0 (bx_plain (L "Ok")) TBool (VBool false)); [|constructor|done|done|constructor].
    split; [by left|]. split; [intros K; apply skipped_eq in K; done|]. right. by apply not_given_by.
  - left. split; [by intros [? ?]|]. split; [done|]. split; [split; [by left|by left]|]. left. exists [L "true"].
    apply texts_by; try (vm_compute; reflexivity). left. vm_compute. reflexivity.
Qed.
Example C77_through_case :
  (forall g u w, copied gx_files gx_setter (L "form") emptyField gx_holder (VStruct [VPtr (Some (VStruct [VBool false]))]) g u w ->
     ~ must_write bx_lib gx_files gx_setter (L "form") g u w) /\
  do_bind2 bx_lib gx_files 6 gx_call (Some (gx_holder, VStruct [VPtr (Some (VStruct [VBool false]))])) =
    (Some (gx_holder, VStruct [VPtr (Some (VStruct [VBool true]))]), BOk).
Proof.
  split; [|vm_compute; reflexivity]. intros g u w Hc Hw.
  inversion Hc as [|? ? ? fs vs i g1 u1 w1 ? ? ? Hwk Hin Hi Hj Hc1]; subst.
  - destruct Hw as [(_ & _ & _ & Hg)|([? ?] & _)]; [|done]. by apply empty_not_given in Hg.
  - inversion Hin; subst. destruct i as [|i]; [|done]. injection Hi as <- <-. injection Hj as <-.
    inversion Hc1 as [|? ? ? fs vs i g2 u2 w2 ? ? ? Hwk2 Hin2 Hi2 Hj2 Hc2]; subst; [|by inversion Hin2].
    destruct Hw as [(Hp & _)|(_ & Hw & _)]; [|done]. apply Hp. by eexists.
Qed.

(** ** C78: Bind and Bind2 *)
(** Where both succeed, Bind and Bind2 bind a number, truth value or string, or a
    pointer to one, to the same value.  Durations differ (nanoseconds for Bind, texts
    like "1m" for Bind2); so do numbers out of range and true fields given false (see
    C32 and C56), which Bind mishandles. *)
Theorem C78_partial :
  forall D (G : golib D) (H : filelib D) n n1 c form order tag e fs v v1 v2 p fl f u w vals,
  wf_lib G -> wf_files G H -> reads2 c (SForm form) tag -> tag <> L "header" ->
  resolve G e = TStruct fs -> wf_type (TStruct fs) -> typed G (TStruct fs) v ->
  place G (TStruct fs) v p fl f u w -> Forall (fun g => ~ selected (D := D) form ∅ tag g) fl ->
  held G (SForm form) tag (TStruct fs) v p f u w ->
  f_exported f = true -> leaf G f u w -> texts form tag f vals ->
  plain_field G u -> u <> TDuration -> (forall e', u = TPtr e' -> resolve G e' <> TDuration) ->
  ~ too_big G u (hd [] vals) -> ~ clears G u w (hd [] vals) ->
  MapForm G n1 (Some (TPtr e, VPtr (Some v))) form order ∅ tag = (Some (TPtr e, VPtr (Some v1)), BOk) ->
  do_bind2 G H n c (Some (TPtr e, VPtr (Some v))) = (Some (TPtr e, VPtr (Some v2)), BOk) ->
  exists a, value_at v1 p = Some a /\ value_at2 v2 p = Some a.
Proof. intros D G H n n1 c form order tag e fs v v1 v2 p fl f u w vals. apply bind_both. Qed.
Print Assumptions C78_partial.
(** A true field given "false" is cleared by Bind2 only. *)
Theorem C78_refuted :
  exists (G : golib Z) (H : filelib Z) t form order, wf_lib G /\ wf_files G H /\ wf_type t /\
    t = TStruct [(bx_field (L "B") (L "b"), TBool)] /\ form = {[ L "b" := [L "false"] ]} /\ order = map_to_list form /\
    exists n, MapForm G n (Some (TPtr t, VPtr (Some (VStruct [VBool true])))) form order ∅ (L "form") = (Some (TPtr t, VPtr (Some (VStruct [VBool true]))), BOk) /\
    mapFormByTag G H n (Some (TPtr t, VPtr (Some (VStruct [VBool true])))) form order (L "form") = (Some (TPtr t, VPtr (Some (VStruct [VBool false]))), BOk).
Proof.
  exists bx_lib, gx_files, (TStruct [(bx_field (L "B") (L "b"), TBool)]), {[ L "b" := [L "false"] ]}, (map_to_list {[ L "b" := [L "false"] ]}).
  split_and!; try done; [apply gx_wf_files|]. exists 6%nat. split; vm_compute; reflexivity.
Qed.
Print Assumptions C78_refuted.
Example C78_example :
  let t := TStruct [(bx_field (L "A") (L "a"), TInt 8)] in let form := {[ L "a" := [L "-5"; L "x"] ]} in
  let c := CRequest B2Form (mkSource form ∅ ∅ ∅ ∅ (fun o => (o, true)) (fun o => (o, true))) in
  reads2 (D := Z) c (SForm form) (L "form") /\ place (D := Z) bx_lib t (VStruct [VNum 1]) [0]%nat [] (bx_field (L "A") (L "a")) (TInt 8) (VNum 1) /\
  held bx_lib (SForm form) (L "form") t (VStruct [VNum 1]) [0]%nat (bx_field (L "A") (L "a")) (TInt 8) (VNum 1) /\
  leaf (D := Z) bx_lib (bx_field (L "A") (L "a")) (TInt 8) (VNum 1) /\ texts form (L "form") (bx_field (L "A") (L "a")) [L "-5"; L "x"] /\
  ~ too_big bx_lib (TInt 8) (L "-5") /\ ~ clears bx_lib (TInt 8) (VNum 1) (L "-5") /\
  MapForm bx_lib 6 (Some (TPtr t, VPtr (Some (VStruct [VNum 1])))) form (map_to_list form) ∅ (L "form") = (Some (TPtr t, VPtr (Some (VStruct [VNum (-5)]))), BOk) /\
  do_bind2 bx_lib gx_files 6 c (Some (TPtr t, VPtr (Some (VStruct [VNum 1])))) = (Some (TPtr t, VPtr (Some (VStruct [VNum (-5)]))), BOk).
Proof.
  intros t form c. split_and!.
  - apply (reads2_form (mkSource form ∅ ∅ ∅ ∅ (fun o => (o, true)) (fun o => (o, true)))).
  - by apply place_here.
  - eapply (place2_into _ _ _ emptyField _ _ [(bx_field (L "A") (L "a"), TInt 8)] _ 0); [apply empty_walked|apply reach_here; by intros [? ?]|done|done|apply place2_here].
  - split_and!; done.
  - exists (L "a"), []. pose proof (tagged_parse (L "form") (bx_field (L "A") (L "a"))) as Ht. vm_compute in Ht. split; [by apply Ht|]. left. vm_compute. reflexivity.
  - intros K. inversion K as [? ? z Hn Hf| |]; subst. apply Hf. destruct Hn as [Hn|[? _]]; [|done].
    apply decimal_iff in Hn as (_ & _ & Hz). vm_compute in Hz. subst z. split; vm_compute; congruence.
  - intros K. inversion K.
  - vm_compute. reflexivity.
  - vm_compute. reflexivity.
Qed.
