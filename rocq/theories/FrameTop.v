(** Replies on a connection are read as they were written. *)
From Coq Require Import ZArith NArith.
From Verif Require Import Base GoStr GoStrFacts UtilSpec Strconv StrconvFacts UtilFacts Header RequestSpec RequestFacts RoutingFacts Router Ctx Engine NetServe NetFrame FrameSpec FrameRead FrameFacts.
Local Open Scope Z_scope.

Section Frame.
Variable has_token : gostr -> gostr -> bool.
Variable status_text : Z -> option gostr.
Variable date : gostr.
Variable sniff : gostr -> gostr.
Variables keep unread : bool.
Variable size : nat.
Variable r : request.
Hypothesis date_line : one_line date.
Hypothesis text_line : forall code t, status_text code = Some t -> bare t.
Hypothesis sniff_line : forall d, one_line (sniff d).
Local Notation writeHeader := (writeHeader has_token date sniff keep unread r).
Local Notation answer := (answer has_token status_text date sniff keep unread size r).
Local Notation torn := (torn has_token status_text date sniff keep unread size r).
Local Notation head_bytes := (head_bytes status_text r).
Local Notation is_head := (is_head r).

(** ** The buffer *)
Definition buf_ok (st : gostr * list gostr) : Prop :=
  (length (fst st) <= size)%nat /\ Forall (fun p => p <> []) (snd st) /\ (match snd st with e :: _ => (size <= length e)%nat | [] => True end).
Lemma buf_write_ok st p : buf_ok st -> buf_ok (buf_write size st p) /\
  concat (snd (buf_write size st p)) ++ fst (buf_write size st p) = concat (snd st) ++ fst st ++ p.
Proof.
  destruct st as [buf out]. intros (H1 & H2 & H3). cbn [fst snd] in *. unfold buf_write.
  destruct (Nat.leb_spec (length p) (size - length buf)) as [Hle|Hgt].
  - unfold buf_ok. cbn [fst snd]. split_and!; [rewrite app_length; lia|done|done|done].
  - assert (forall x, (size <= length x)%nat -> match out ++ [x] with e :: _ => (size <= length e)%nat | [] => True end) as Hout
      by (intros x Hx; destruct out; done).
    destruct buf as [|b buf].
    + unfold buf_ok. cbn [fst snd length] in *. split; [split_and!|].
      * lia.
      * apply Forall_app. split; [done|]. constructor; [|constructor]. intros ->. cbn in Hgt. lia.
      * apply Hout. lia.
      * rewrite concat_app. cbn [concat]. by rewrite !app_nil_r.
    + set (n := (size - length (b :: buf))%nat) in *. set (full := (b :: buf) ++ take n p).
      assert (length full = size) as Hf by (unfold full; rewrite app_length, take_length; lia).
      assert (full <> []) as Hne by done.
      assert (full ++ drop n p = (b :: buf) ++ p) as Hfd by (unfold full; rewrite <- app_assoc, take_drop; done).
      destruct (Nat.leb_spec (length (drop n p)) size) as [Hq|Hq]; unfold buf_ok; cbn [fst snd].
      * split; [split_and!|].
        -- done.
        -- apply Forall_app. split; [done|]. by constructor.
        -- apply Hout. lia.
        -- rewrite concat_app. cbn [concat]. rewrite app_nil_r, <- app_assoc, Hfd. done.
      * split; [split_and!|].
        -- cbn. lia.
        -- apply Forall_app. split; [done|]. constructor; [done|]. constructor; [|constructor]. intros E. rewrite E in Hq. cbn in Hq. lia.
        -- destruct out; cbn [app]; [rewrite Hf; lia|done].
        -- rewrite concat_app. cbn [concat]. rewrite !app_nil_r, Hfd. done.
Qed.
Lemma buffered_ok ps : buf_ok (buffered size ps) /\ concat (snd (buffered size ps)) ++ fst (buffered size ps) = concat ps.
Proof.
  unfold buffered. assert (buf_ok ([], [])) as H0 by (split_and!; cbn; [lia|constructor|done]).
  assert (forall st, buf_ok st -> buf_ok (fold_left (buf_write size) ps st) /\
    concat (snd (fold_left (buf_write size) ps st)) ++ fst (fold_left (buf_write size) ps st) = concat (snd st) ++ fst st ++ concat ps) as H.
  { clear H0. induction ps as [|p ps IH]; intros st Hst; cbn [fold_left concat].
    - by rewrite app_nil_r.
    - destruct (buf_write_ok st p Hst) as [H1 H2]. destruct (IH _ H1) as [H3 H4]. split; [done|].
      rewrite H4, app_assoc, H2, <- !app_assoc. done. }
  apply H in H0 as [H1 H2]. done.
Qed.

(** ** What a declared length leaves *)
Lemma admitted_all limit ps : forall n, match limit with Some m => n + Z.of_nat (length (concat ps)) <= m | None => True end ->
  concat (admitted limit n ps) = concat ps.
Proof.
  induction ps as [|p ps IH]; intros n Hn; [done|]. cbn [admitted concat] in *. rewrite app_length in Hn.
  destruct (seqb p []) eqn:E.
  - apply seqb_true in E as ->. apply IH. destruct limit; [cbn in Hn; lia|done].
  - assert (match limit with Some m => m <? n + Z.of_nat (length p) | None => false end = false) as ->.
    { destruct limit; [apply Z.ltb_ge; lia|done]. }
    cbn [concat]. f_equal. apply IH. destruct limit; [lia|done].
Qed.

(** ** The header *)
Definition auto (code : Z) (h : header) (done : bool) (p : gostr) : bool :=
  done && body_allowed code && seqb (h_get h (L "Content-Length")) [] && (negb is_head || negb (seqb p [])).
Definition len (code : Z) (h : header) (limit : option Z) (done : bool) (p : gostr) : option Z :=
  if auto code h done p then Some (Z.of_nat (length p)) else limit.
Definition chunking (code : Z) (h : header) (limit : option Z) (done : bool) (p : gostr) : bool :=
  negb is_head && body_allowed code && match len code h limit done p with Some _ => false | None => true end && at_least_11 r.
Definition ctype (code : Z) (h : header) (p : gostr) : list (gostr * gostr) :=
  if body_allowed code && seqb (h_get h (L "Content-Encoding")) [] && bool_decide (h !! L "Content-Type" = None) && negb (seqb p [])
  then [(L "Content-Type", sniff p)] else [].
Ltac mem :=
  repeat match goal with H : _ ∈ _ :: _ |- _ => apply elem_of_cons in H as [H|H] | H : _ ∈ [] |- _ => by apply elem_of_nil in H end;
  match goal with |- _ ∈ _ => repeat first [by apply elem_of_list_here|apply elem_of_list_further] | |- _ => auto 8 end.
Lemma shape code h limit done p : plain_header h ->
  exists dels conn close, writeHeader code h limit done p =
    mkFraming (header_fields dels h ++ (if bool_decide (h !! L "Date" = None) then [(L "Date", date)] else []) ++
               (if auto code h done p then [(L "Content-Length", itoa (Z.of_nat (length p)))] else []) ++ ctype code h p ++ conn ++
               (if chunking code h limit done p then [(L "Transfer-Encoding", L "chunked")] else []))
      (len code h limit done p) (chunking code h limit done p) close /\
    (forall k, k ∈ dels -> k = L "Connection" \/ k = L "Transfer-Encoding" \/ k = L "Content-Length" /\ (body_allowed code = false \/ chunking code h limit done p = true) \/
       k = L "Content-Type" /\ code = 304) /\
    (code = 304 -> L "Content-Type" ∈ dels) /\
    (body_allowed code = false -> L "Content-Length" ∈ dels) /\
    (conn = [] \/ conn = [(L "Connection", L "keep-alive")] \/ conn = [(L "Connection", L "close")]) /\
    (is_head = false -> body_allowed code = true -> len code h limit done p = None -> at_least_11 r = false -> close = true) /\
    (close = true -> at_least_11 r = false \/ wants_close has_token r = true \/ h_get h (L "Connection") = L "close" \/ keep = false \/ unread = true).
Proof.
  intros (Hn & Hte & Htr). unfold NetFrame.writeHeader.
  assert (h_get h (L "Transfer-Encoding") = []) as -> by (unfold h_get; by rewrite Hte).
  rewrite Htr.
  assert (existsb (fun kv : gostr * list gostr => has_prefix (L "Trailer:") kv.1) (map_to_list h) = false) as ->.
  { apply not_true_iff_false. intros E. apply existsb_exists in E as ([k vs] & Hin & Hp). cbn [fst] in Hp.
    apply elem_of_list_In, elem_of_map_to_list in Hin. destruct (Hn k) as [[_ Ht] _]; [by eexists|].
    apply token_colon in Ht. apply Ht. apply has_prefix_spec in Hp as [x ->]. apply elem_of_app. left.
    apply (bool_decide_eq_true _). vm_compute. reflexivity. }
  change (seqb [] []) with true. change (seqb [] (L "identity")) with false. change (seqb [] (L "chunked")) with false.
  cbn [length Nat.eqb negb orb andb]. cbv zeta. rewrite !andb_true_r, !andb_false_r.
  change (done && body_allowed code && seqb (h_get h (L "Content-Length")) [] && (negb is_head || negb (seqb p []))) with (auto code h done p).
  fold (len code h limit done p).
  cbn [negb]. rewrite ?andb_true_r. fold (ctype code h p).
  set (ln := len code h limit done p). set (au := auto code h done p).
  assert (chunking code h limit done p = negb is_head && body_allowed code && match ln with Some _ => false | None => true end && at_least_11 r) as Hck by done.
  set (ck := chunking code h limit done p) in *. clearbody ck.
  set (ka := match ln with Some _ => true | None => false end).
  set (stays := wants_10_keep has_token r && _).
  set (close := negb stays && _ || _ || _ || _).
  assert (close = true -> at_least_11 r = false \/ wants_close has_token r = true \/ h_get h (L "Connection") = L "close" \/ keep = false \/ unread = true) as Hclose.
  { unfold close. rewrite !orb_true_iff, andb_true_iff, orb_true_iff, !negb_true_iff. intros [[[[_ [?|?]]|E]|?]|?]; auto 6. apply seqb_true in E. auto. }
  clearbody close.
  set (conn := if stays && _ then _ else _).
  assert (conn = [] \/ conn = [(L "Connection", L "keep-alive")] \/ conn = [(L "Connection", L "close")]) as Hconn.
  { unfold conn. destruct (stays && _); auto. }
  clearbody conn.
  assert (forall (b : bool) (c : list (gostr * gostr)), c = [] \/ c = [(L "Connection", L "keep-alive")] \/ c = [(L "Connection", L "close")] ->
    let c' := if b then [(L "Connection", L "close")] else c in c' = [] \/ c' = [(L "Connection", L "keep-alive")] \/ c' = [(L "Connection", L "close")]) as Hc2
    by (intros [] ? ?; auto).
  unfold suppressedHeaders.
  destruct is_head eqn:Hhd; [|destruct (body_allowed code) eqn:Hba]; cbn [orb negb andb] in *.
  - subst ck. cbv iota. eexists _, _, _. split; [reflexivity|].
    destruct (close && _), (body_allowed code) eqn:Hba; cbn [andb]; (split_and!; [| | |first [exact (Hc2 _ _ Hconn)|exact Hconn|by auto|by destruct (at_least_11 r); auto]|done|by auto]).
    all: first [intros k Hk|intros H304|intros Hb]; try done.
    all: try (destruct (Z.eqb_spec code 304); [|try done]).
    all: try (subst code; vm_compute in Hba; discriminate).
    all: try mem.
  - destruct ln as [n|] eqn:Hln; cbn [andb] in *.
    + subst ck ka. cbv iota. eexists _, _, _. split; [reflexivity|].
      destruct (close && _); cbn [andb]; (split_and!; [| | |first [exact (Hc2 _ _ Hconn)|exact Hconn|by auto|by destruct (at_least_11 r); auto]|done|by auto]).
      all: first [intros k Hk|intros H304|intros Hb]; try done.
      all: try (subst code; vm_compute in Hba; discriminate).
      all: try mem.
    + destruct (at_least_11 r) eqn:H11; subst ck ka; cbv iota; eexists _, _, _; (split; [reflexivity|]).
      * destruct (close && _); cbn [andb]; (split_and!; [| | |first [exact (Hc2 _ _ Hconn)|exact Hconn|by auto|by destruct (at_least_11 r); auto]|done|by auto]).
        all: first [intros k Hk|intros H304|intros Hb]; try done.
        all: try (subst code; vm_compute in Hba; discriminate).
        all: try mem.
      * destruct (true && _); cbn [andb]; (split_and!; [| | |first [exact (Hc2 _ _ Hconn)|exact Hconn|by auto|by destruct (at_least_11 r); auto]|done|by auto]).
        all: first [intros k Hk|intros H304|intros Hb]; try done.
        all: try (subst code; vm_compute in Hba; discriminate).
        all: try mem.
  - subst ck. cbv iota. eexists _, _, _. split; [reflexivity|].
    destruct (close && _); cbn [andb]; (split_and!; [| | |first [exact (Hc2 _ _ Hconn)|exact Hconn|by auto|by destruct (at_least_11 r); auto]|done|by auto]).
    all: first [intros k Hk|intros H304|intros Hb]; try done.
    all: try (destruct (Z.eqb_spec code 304); [|try done]).
    all: try mem.
Qed.

Lemma lit_name n : bool_decide (n <> [] /\ is_token n) = true -> field_name n.
Proof. by intros H%bool_decide_eq_true. Qed.
Lemma one_value n v k : field_values k [(n, v)] = if seqb (map lower_byte n) (map lower_byte k) then [v] else [].
Proof. done. Qed.
Lemma fields_ok code h limit done p : plain_header h -> Forall field_ok (fr_fields (writeHeader code h limit done p)).
Proof.
  intros Hp. destruct (shape code h limit done p Hp) as (dels & conn & close & -> & _ & _ & _ & Hconn & _ & _). cbn [fr_fields].
  assert (forall n v, field_name n -> one_line v -> Forall field_ok [(n, v)]) as H1 by (intros; constructor; [done|constructor]).
  rewrite !Forall_app. split_and!.
  - apply header_fields_ok. by destruct Hp.
  - case_bool_decide; [|constructor]. apply H1; [by apply lit_name|done].
  - destruct (auto _ _ _ _); [|constructor]. apply H1; [by apply lit_name|]. apply itoa_line. lia.
  - unfold ctype. destruct (_ && _); [|constructor]. apply H1; [by apply lit_name|done].
  - destruct Hconn as [->|[->| ->]]; [constructor|apply H1; [by apply lit_name|by apply one_line_lit]..].
  - destruct (chunking _ _ _ _ _); [|constructor]. apply H1; [by apply lit_name|by apply one_line_lit].
Qed.
Lemma not_deleted k dels : k ∉ dels -> existsb (seqb k) dels = false.
Proof. intros H. apply not_true_iff_false. intros E. apply existsb_exists in E as (x & Hin & Hx). apply seqb_true in Hx as ->. by apply H, elem_of_list_In. Qed.
Lemma deleted k dels : k ∈ dels -> existsb (seqb k) dels = true.
Proof. intros H. apply existsb_exists. exists k. split; [by apply elem_of_list_In|]. apply seqb_refl. Qed.
(** the values of a name *)
Lemma values_te code h limit done p : plain_header h ->
  field_values (L "Transfer-Encoding") (fr_fields (writeHeader code h limit done p)) = if chunking code h limit done p then [L "chunked"] else [].
Proof.
  intros Hp. destruct (shape code h limit done p Hp) as (dels & conn & close & -> & _ & _ & _ & Hconn & _ & _). cbn [fr_fields].
  rewrite !field_values_app, header_values by (first [by apply lit_name|by destruct Hp]).
  destruct Hp as (_ & -> & _). replace (if existsb _ dels then [] else map clean []) with (@nil gostr) by (by destruct (existsb _ dels)).
  replace (field_values _ (if bool_decide _ then _ else _)) with (@nil gostr) by (by case_bool_decide).
  replace (field_values _ (if auto _ _ _ _ then _ else _)) with (@nil gostr) by (by destruct (auto _ _ _ _)).
  replace (field_values _ (ctype _ _ _)) with (@nil gostr) by (unfold ctype; by destruct (_ && _)).
  replace (field_values _ conn) with (@nil gostr) by (by destruct Hconn as [->|[->| ->]]).
  by destruct (chunking _ _ _ _ _).
Qed.
Lemma values_length code h limit done p : plain_header h -> body_allowed code = true -> chunking code h limit done p = false ->
  field_values (L "Content-Length") (fr_fields (writeHeader code h limit done p)) =
    map clean (h_values h (L "Content-Length")) ++ if auto code h done p then [itoa (Z.of_nat (length p))] else [].
Proof.
  intros Hp Hb Hck. destruct (shape code h limit done p Hp) as (dels & conn & close & -> & Hd & _ & _ & Hconn & _ & _). cbn [fr_fields].
  rewrite !field_values_app, header_values by (first [by apply lit_name|by destruct Hp]).
  rewrite not_deleted.
  2:{ intros Hin. apply Hd in Hin as [E|[E|[[_ [E|E]]|[E _]]]]; try (vm_compute in E; discriminate); congruence. }
  replace (field_values _ (if bool_decide _ then _ else _)) with (@nil gostr) by (by case_bool_decide).
  replace (field_values _ (ctype _ _ _)) with (@nil gostr) by (unfold ctype; by destruct (_ && _)).
  replace (field_values _ conn) with (@nil gostr) by (by destruct Hconn as [->|[->| ->]]).
  rewrite Hck. cbn [field_values]. rewrite !app_nil_r. cbn [app]. f_equal. by destruct (auto _ _ _ _).
Qed.
Lemma values_type code h limit done p : plain_header h ->
  field_values (L "Content-Type") (fr_fields (writeHeader code h limit done p)) =
    (if code =? 304 then [] else map clean (h_values h (L "Content-Type"))) ++ map snd (ctype code h p).
Proof.
  intros Hp. destruct (shape code h limit done p Hp) as (dels & conn & close & -> & Hd & Hct & _ & Hconn & _ & _). cbn [fr_fields].
  rewrite !field_values_app, header_values by (first [by apply lit_name|by destruct Hp]).
  replace (field_values _ (if bool_decide _ then _ else _)) with (@nil gostr) by (by case_bool_decide).
  replace (field_values _ (if auto _ _ _ _ then _ else _)) with (@nil gostr) by (by destruct (auto _ _ _ _)).
  replace (field_values _ conn) with (@nil gostr) by (by destruct Hconn as [->|[->| ->]]).
  replace (field_values _ (if chunking _ _ _ _ _ then _ else _)) with (@nil gostr) by (by destruct (chunking _ _ _ _ _)).
  rewrite !app_nil_r. cbn [app]. f_equal.
  - destruct (Z.eqb_spec code 304) as [E|E].
    + rewrite deleted; [done|]. by apply Hct.
    + rewrite not_deleted; [done|]. intros Hin. apply Hd in Hin as [F|[F|[[F _]|[_ F]]]]; try (vm_compute in F; discriminate); congruence.
  - unfold ctype. by destruct (_ && _).
Qed.
Definition server_names : list gostr := [L "Date"; L "Content-Length"; L "Connection"; L "Transfer-Encoding"; L "Content-Type"].
Lemma values_other k code h limit done p : plain_header h -> is_token k -> canon k ∉ server_names ->
  field_values k (fr_fields (writeHeader code h limit done p)) = map clean (h_values h k).
Proof.
  intros Hp Hk Hn. destruct (shape code h limit done p Hp) as (dels & conn & close & -> & Hd & _ & _ & Hconn & _ & _). cbn [fr_fields].
  rewrite !field_values_app, header_values by (first [done|by destruct Hp]).
  assert (forall n v, n ∈ server_names -> canon n = n -> field_name n -> field_values k [(n, v)] = []) as H1.
  { intros n v Hin Hc [_ Ht]. rewrite one_value, name_test by done. rewrite Hc.
    assert (seqb n (canon k) = false) as ->; [|done]. apply seqb_false. intros ->. done. }
  assert (forall (n : gostr), bool_decide (n ∈ server_names /\ canon n = n /\ field_name n) = true -> forall v, field_values k [(n, v)] = []) as H2.
  { intros n Hb%bool_decide_eq_true v. destruct Hb as (? & ? & ?). by apply H1. }
  rewrite not_deleted.
  2:{ intros Hin. apply Hd in Hin. apply Hn.
      destruct Hin as [->|[->|[[-> _]|[-> _]]]]; apply (bool_decide_eq_true _); vm_compute; reflexivity. }
  replace (field_values k (if bool_decide _ then _ else _)) with (@nil gostr) by (case_bool_decide; [by rewrite H2|done]).
  replace (field_values k (if auto _ _ _ _ then _ else _)) with (@nil gostr) by (destruct (auto _ _ _ _); [by rewrite H2|done]).
  replace (field_values k conn) with (@nil gostr) by (destruct Hconn as [->|[->| ->]]; [done|by rewrite H2..]).
  replace (field_values k (if chunking _ _ _ _ _ then _ else _)) with (@nil gostr) by (destruct (chunking _ _ _ _ _); [by rewrite H2|done]).
  replace (field_values k (ctype _ _ _)) with (@nil gostr) by (unfold ctype; destruct (_ && _); [by rewrite H2|done]).
  by rewrite !app_nil_r.
Qed.

(** ** Status line and header *)
Lemma code_digits code : 100 <= code <= 999 -> length (itoa code) = 3%nat.
Proof.
  intros H. assert (bool_decide (Forall (fun n => length (itoa (Z.of_nat n)) = 3%nat) (seq 100 900)) = true) as Hall by (vm_compute; reflexivity).
  apply bool_decide_eq_true in Hall. rewrite Forall_forall in Hall. specialize (Hall (Z.to_nat code)). rewrite Z2Nat.id in Hall by lia.
  apply Hall, elem_of_seq. lia.
Qed.
Lemma head_ok code fr : 100 <= code <= 999 -> Forall field_ok (fr_fields fr) -> head_text code (fr_fields fr) (head_bytes code fr).
Proof.
  intros Hc Hf. unfold NetFrame.head_bytes, status_line.
  set (ver := if at_least_11 r then _ else _). assert (exists v, is_digit v /\ ver = L "HTTP/1." ++ [v] ++ L " ") as (v & Hv & ->).
  { unfold ver. destruct (at_least_11 r); [exists "1"%char|exists "0"%char]; (split; [unfold is_digit; vm_compute; split; discriminate|reflexivity]). }
  assert (0 <= code) as H0 by lia. pose proof (itoa_udecimal code H0) as Hu.
  set (text := match status_text code with Some _ => _ | None => _ end).
  assert (exists reason, bare reason /\ text = itoa code ++ L " " ++ reason) as (reason & Hr & ->).
  { unfold text. destruct (status_text code) eqn:E.
    - eexists. split; [by eapply text_line|done].
    - exists (L "status code " ++ itoa code). split; [|done]. apply bare_app. split.
      + split; apply (bool_decide_eq_true _); vm_compute; reflexivity.
      + apply digits_bare. by destruct Hu as (_ & ? & _). }
  pose proof (head_is v code (itoa code) reason (fr_fields fr) (flat_map field_line (fr_fields fr)) Hv (code_digits _ Hc) Hu Hr (fields_text _ Hf)) as H.
  rewrite <- !app_assoc. exact H.
Qed.
Lemma bodiless_iff code : bodiless is_head code <-> is_head = true \/ body_allowed code = false.
Proof.
  unfold bodiless, body_allowed. destruct is_head; [tauto|]. split; (intros [H|H]; [done|right]).
  - apply negb_false_iff. destruct H as [H|[->| ->]]; [|by rewrite orb_true_r..].
    apply orb_true_iff. left. apply orb_true_iff. left. apply andb_true_iff. split; apply Z.leb_le; lia.
  - apply negb_false_iff in H. apply orb_true_iff in H as [H|H]; [apply orb_true_iff in H as [H|H]|].
    + apply andb_true_iff in H as [H1%Z.leb_le H2%Z.leb_le]. lia.
    + apply Z.eqb_eq in H. auto.
    + apply Z.eqb_eq in H. auto.
Qed.
Lemma chunks_text data : Forall (fun p => p <> []) data -> chunked_text (concat data) (flat_map chunk data ++ L "0" ++ crlf ++ crlf).
Proof.
  induction 1 as [|d data Hd _ IH]; [constructor|]. cbn [concat flat_map]. unfold chunk at 1. rewrite <- !app_assoc.
  apply (chunked_more d (concat data) (format_N 16 (N.of_nat (length d)))); [done|apply hex_number_format|done].
Qed.
Lemma length_unset h : h_values h (L "Content-Length") = [] -> h_get h (L "Content-Length") = [].
Proof. unfold h_get. by intros ->. Qed.
Lemma declared_unset h : h_values h (L "Content-Length") = [] -> declared h = None.
Proof. intros H. unfold declared. by rewrite length_unset. Qed.
Lemma declared_set h z n : h_values h (L "Content-Length") = [z] -> udecimal z n -> n < 2 ^ 63 -> declared h = Some n /\ h_get h (L "Content-Length") = z.
Proof.
  intros H (Hz & Hd & ->) Hn.
  assert (h_get h (L "Content-Length") = z) as Hg by (unfold h_get; by rewrite H). split; [|done].
  unfold declared. rewrite Hg. destruct z as [|a z]; [done|].
  assert (0 <= dec_value (a :: z)) as H0.
  { unfold dec_value. clear -Hd. assert (forall v, 0 <= v -> 0 <= fold_left (fun v c => v * 10 + digit_of c) (a :: z) v) as G; [|by apply G].
    induction Hd as [|c s Hc _ IH]; intros v Hv; [done|]. cbn [fold_left]. apply IH. unfold digit_of. unfold is_digit in Hc. lia. }
  rewrite (parse_int_decimal 64 _ _ ltac:(lia) (dec_plain _ Hz Hd)).
  change (2 ^ (Z.of_N 64 - 1)) with (2 ^ 63). rewrite bool_decide_true by lia.
  unfold clamp. rewrite Z.min_r, Z.max_r by lia.
  rewrite (proj2 (Z.leb_le _ _)) by lia. done.
Qed.

(** ** The reply *)
Lemma reads_frame code fs t s b rest : head_text code fs t -> 200 <= code -> body_text is_head code fs s b rest -> reads is_head (t ++ s) (code, fs, b) rest.
Proof. intros. apply reads_reply; [done|lia|done]. Qed.
End Frame.
