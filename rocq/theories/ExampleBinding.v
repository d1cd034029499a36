(** A struct, a form and a library to try the theorems on binding on. *)
From Coq Require Import ZArith NArith.
From Verif Require Import Base GoStr Strconv Header UtilSpec Binding BindingSpec BindingFacts BindingTop.

Lemma tagged_parse tag f : fst (parseFormName f tag) <> L "-" -> tagged tag f (fst (parseFormName f tag)) (o_default (snd (parseFormName f tag))).
Proof.
  intros H. destruct (tagged_dec tag f) as [(key & d & Ht)|Hn]; [|by apply parse_untagged in Hn].
  destruct (parse_tagged _ _ _ _ Ht) as (-> & _ & ->). done.
Qed.
Lemma untagged_parse tag f key d : fst (parseFormName f tag) = L "-" -> ~ tagged tag f key d.
Proof. intros E H. by apply parse_tagged in H as (<- & H & _). Qed.
Lemma unselected_parse {D} form (files : gmap gostr (list D)) tag f : fst (parseFormName f tag) = L "-" -> ~ selected form files tag f.
Proof. intros E [(vals & k & d & H & _)|(fs & k & H & _)]; by eapply untagged_parse. Qed.

Lemma no_tag tag f : f_tag f = [] -> fst (parseFormName f tag) = L "-".
Proof. intros E. unfold parseFormName. rewrite E. cbn [tag_get head index_byte fst]. rewrite seqb_refl. cbn [fst]. rewrite seqb_refl, andb_false_r. done. Qed.

(** type node struct { Next *node }; the struct validator rejects the struct {7} *)
Definition bx_node : gotype := TStruct [(mkField (L "Next") true false [], TPtr (TRef (L "node")))].
Definition bx_lib : golib Z := mkLib _ (fun _ => bx_node) (fun _ => 0%Z) (fun _ _ => Some 1%Z) (fun _ _ v => (v, false))
  (fun a _ => a) (fun _ _ _ => None) (fun _ => None) (fun _ => true)
  (fun _ v => match v with VStruct [VNum 7] => Some (EInvalid 0) | _ => None end).
Definition bx_field (n key : gostr) : field := mkField n true false [(L "form", key)].
Definition bx_plain (n : gostr) : field := mkField n true false [].
(** struct { Name string `form:"name"`; Age int8 `form:"age,default=7"`; Tags []uint16 `form:"tags"`;
    In struct { Ok bool `form:"ok"` }; hidden int; Upload *multipart.FileHeader `form:"up"` } *)
Definition bx_in : list (field * gotype) := [(bx_field (L "Ok") (L "ok"), TBool)].
Definition bx_fields : list (field * gotype) :=
  [(bx_field (L "Name") (L "name"), TString); (bx_field (L "Age") (L "age,default=7"), TInt 8);
   (bx_field (L "Tags") (L "tags"), TSlice (TUint 16)); (bx_plain (L "In"), TStruct bx_in);
   (mkField (L "hidden") false false [(L "form", L "name")], TInt 64); (bx_field (L "Upload") (L "up"), TPtr TFile)].
Definition bx_type : gotype := TStruct bx_fields.
Definition bx_value : goval Z :=
  VStruct [VString (L "old"); VNum 1; VSlice None; VStruct [VBool false]; VNum 5; VPtr None].
Definition bx_form : gmap gostr (list gostr) :=
  {[ L "name" := [L "ann"; L "bob"]; L "tags" := [L "3"; L "65535"]; L "ok" := [L "true"] ]}.
Definition bx_files : gmap gostr (list Z) := {[ L "up" := [11; 12]%Z ]}.
Definition bx_after : goval Z :=
  VStruct [VString (L "ann"); VNum 7; VSlice (Some [VNum 3; VNum 65535]); VStruct [VBool true]; VNum 5; VPtr (Some (VOpaque 11%Z))].

Lemma bx_wf_lib : wf_lib bx_lib.
Proof. intros n. cbn. done. Qed.
Lemma bx_wf : wf_type bx_type.
Proof. cbn. rewrite !elem_of_cons. tauto. Qed.
Lemma bx_typed : typed bx_lib bx_type bx_value.
Proof.
  constructor. repeat (apply Forall2_cons; split); try apply Forall2_nil; try done; cbn [snd].
  - constructor.
  - constructor. vm_compute. split; congruence.
  - constructor.
  - constructor. constructor; [constructor|constructor].
  - constructor. vm_compute. split; congruence.
  - constructor.
Qed.
Lemma bx_result : MapForm bx_lib 3 (Some (TPtr bx_type, VPtr (Some bx_value))) bx_form (map_to_list bx_form) bx_files (L "form") =
  (Some (TPtr bx_type, VPtr (Some bx_after)), BOk).
Proof. vm_compute. reflexivity. Qed.
Lemma bx_texts f vals :
  (let '(k, o) := parseFormName f (L "form") in seqb k (L "-") = false /\
    match bx_form !! k with Some l => l = vals | None => seqb (o_default o) [] = false /\ [o_default o] = vals end) ->
  texts bx_form (L "form") f vals.
Proof.
  destruct (parseFormName f (L "form")) as [k o] eqn:E. intros [H1 H2]. exists k, (o_default o).
  pose proof (tagged_parse (L "form") f) as Ht. rewrite E in Ht. cbn [fst snd] in Ht. apply seqb_false in H1. specialize (Ht H1).
  split; [done|]. destruct (bx_form !! k) as [l|]; [left; by subst|right]. destruct H2 as [H2 H3]. apply seqb_false in H2. auto.
Qed.
Lemma bx_leaf i f t v : bx_fields !! i = Some (f, t) -> i <> 3%nat -> (match bx_value with VStruct vs => vs !! i | _ => None end) = Some v ->
  leaf bx_lib f t v.
Proof.
  intros H Hi _. destruct i as [|[|[|[|[|[|i]]]]]]; try done; cbn in H; injection H as <- <-; (split; [done|]); (split; [done|]); (split; [done|]); try done.
  intros e [= <-] _. done.
Qed.
