(** Handlers written with the helpers of the package leave the framing to the server. *)
From Coq Require Import ZArith NArith.
From Verif Require Import Base GoStr Strconv UtilSpec Header RequestSpec Router Ctx CtxFacts Util Getters Content Middleware NetCookie TraceSpec Engine
  NetFrame FrameSpec FrameClaim FrameTop FrameRun FrameFile.
Local Open Scope Z_scope.

Section Api.
Context {V : Type}.
Implicit Types p : prog V.
Implicit Types o : op V.
(** calls that neither set a header nor a status *)
Definition harmless o : Prop :=
  match o with OHeaderSet _ _ | OHeaderAdd _ _ | OWriteHeader _ | ORawWriteHeader _ => False | _ => True end.
(** the headers that a handler may set itself *)
Definition own (k : gostr) : Prop := field_name k /\ canon k ∉ [L "Transfer-Encoding"; L "Trailer"; L "Content-Length"].
Definition final (n : Z) : Prop := ~ (100 <= n <= 199).
(** handlers that call the helpers, in any order and depending on anything *)
Inductive api : prog V -> Prop :=
  | api_ret : api PRet
  | api_panic v : api (PPanic v)
  | api_next k : api k -> api (PNext k)
  | api_defer p k : api p -> (forall a, api (k a)) -> api (PTry p k)
  | api_call o k : harmless o -> (forall a, api (k a)) -> api (PDo o k)
  | api_set key v k : own key -> api k -> api (SetHeader key v k)
  | api_add key v k : own key -> api k -> api (PDo (OHeaderAdd key v) (fun _ => k))
  | api_abort n k : final n -> api k -> api (Abort n k)
  | api_nocache k : api k -> api (NoCache k)
  | api_string n s k : final n -> api k -> api (String_ n s k)
  | api_data n t s k : final n -> api k -> api (Data n t s k)
  | api_html n s k : final n -> api k -> api (HTMLRaw n s k)
  | api_json n out ok k : final n -> (forall b, api (k b)) -> api (JSON n out ok k)
  | api_xml n out ok k : final n -> (forall b, api (k b)) -> api (XML n out ok k)
  | api_render n k : final n -> api k -> api (HTMLSet n k)
  | api_stream t out ok k : (forall b, api (k b)) -> api (Stream t out ok k)
  | api_moved location page uri k : api k -> api (MovedPermanently location page uri k)
  | api_found location page uri k : api k -> api (Found location page uri k)
  | api_cookie name value others k : api k -> api (SetCookie_prog name value others k)
  | api_recovery stable crash : api (Recovery stable crash)
  | api_logger lf limit close body : api (Logger lf limit close body)
  | api_cors cfg : api (CORS cfg).

Lemma own_lit k : bool_decide ((k <> [] /\ is_token k) /\ canon k ∉ [L "Transfer-Encoding"; L "Trailer"; L "Content-Length"]) = true -> own k.
Proof. intros H%bool_decide_eq_true. exact H. Qed.
Lemma set_lit k v : bool_decide ((k <> [] /\ is_token k) /\ canon k ∉ [L "Transfer-Encoding"; L "Trailer"; L "Content-Length"]) = true -> polite (V:=V) (OHeaderSet k v).
Proof. exact (own_lit k). Qed.
Lemma add_lit k v : bool_decide ((k <> [] /\ is_token k) /\ canon k ∉ [L "Transfer-Encoding"; L "Trailer"; L "Content-Length"]) = true -> polite (V:=V) (OHeaderAdd k v).
Proof. exact (own_lit k). Qed.
Ltac one := first [exact I | assumption | apply set_lit; vm_compute; reflexivity | apply add_lit; vm_compute; reflexivity | (cbn; lia)].
Ltac ops := repeat first [apply List.Forall_nil | apply List.Forall_cons; [one|]].
Lemma writes_polite l : Forall (polite (V:=V)) (map OWrite l).
Proof. induction l; constructor; [exact I|done]. Qed.
Lemma string_polite n s (k : prog V) : final n -> only polite k -> only polite (String_ n s k).
Proof. intros Hn Hk. apply only_seqp; [|done]. ops. Qed.
Theorem api_polite p : api p -> only polite p.
Proof.
  induction 1.
  - exact I.
  - exact I.
  - done.
  - split; done.
  - split; [|done]. by destruct o.
  - apply only_seqp; [|done]. constructor; [exact H|constructor].
  - split; [exact H|done].
  - apply only_seqp; [|done]. ops.
  - apply only_seqp; [|done]. ops.
  - by apply string_polite.
  - apply only_seqp; [|done]. ops.
  - apply only_seqp; [|done]. ops.
  - apply only_seqp; [|done]. constructor; [exact H|]. constructor; [one|]. apply writes_polite.
  - apply only_seqp; [|done]. constructor; [exact H|]. constructor; [one|]. apply writes_polite.
  - apply only_seqp; [|done]. ops.
  - apply only_seqp; [|done]. constructor; [one|]. apply writes_polite.
  - split; [exact I|]. intros r. split; [exact I|]. intros t. apply only_seqp; [|done]. apply Forall_app. split; [ops|].
    apply Forall_app. split; [destruct (_ && _); ops|]. apply Forall_app. split; [ops|]. destruct (_ && _); ops.
  - split; [exact I|]. intros r. split; [exact I|]. intros t. apply only_seqp; [|done]. apply Forall_app. split; [ops|].
    apply Forall_app. split; [destruct (_ && _); ops|]. apply Forall_app. split; [ops|]. destruct (_ && _); ops.
  - split; [one|]. intros _. done.
  - split; [exact I|]. intros [[v|]|]; (split; [exact I|]); intros w.
    + apply only_seqp; [|destruct stable; [exact I|]; apply string_polite; [unfold final; lia|exact I]].
      apply Forall_app. split; [destruct w; ops|]. ops.
    + destruct w; [exact I|]. split; [one|]. intros _. exact I.
    + destruct w; [exact I|]. split; [one|]. intros _. exact I.
  - unfold Logger. destruct close; [exact I|]. split; [exact I|]. intros r. destruct (body && _).
    + split; [exact I|]. intros d. split; [exact I|]. intros _. split; [exact I|]. intros _. cbn. split; [exact I|]. intros n. split; [exact I|]. intros r1. split; [exact I|]. done.
    + cbn. split; [exact I|]. intros n. split; [exact I|]. intros r1. split; [exact I|]. done.
  - split; [exact I|]. intros r. destruct (negb (seqb (rq_method r) _)); (apply only_seqp; [|exact I]).
    + apply Forall_app. split; [ops|]. apply Forall_app. split; [destruct (AllowCredentials cfg); ops|]. destruct (seqb _ _); ops.
    + apply Forall_app. split; [ops|]. apply Forall_app. split; [destruct (AllowCredentials cfg); ops|].
      apply Forall_app. split; [destruct (negb _); [ops|]; destruct (negb _); ops|]. apply Forall_app. split; [destruct (0 <? _); ops|]. ops.
Qed.
End Api.
