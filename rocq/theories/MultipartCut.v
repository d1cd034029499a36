(** A multipart body that is cut off is an error. *)
From Coq Require Import ZArith.
From Verif Require Import Base GoStr GoStrFacts GetterFacts Strconv Pattern Tree Header Router Ctx CallSpec HttpFacts Util Binding BindingSpec BindingTop RequestSpec RequestFacts
  NetQuery QuerySpec QueryFacts Forms FormsSpec FormsFacts NetMultipart MultipartSpec MultipartFacts MultipartServe.

Lemma cut_cases {X} (u v x y : list X) : u ++ v = x ++ y -> (exists w, w <> [] /\ x = u ++ w) \/ exists u', u = x ++ u' /\ u' ++ v = y.
Proof.
  revert x. induction u as [|a u IH]; intros x E.
  - destruct x as [|b x]; [right; by exists []|left; by exists (b :: x)].
  - destruct x as [|b x]; [right; by exists (a :: u)|]. cbn [app] in E. injection E as -> E. destruct (IH x E) as [(w & Hw & ->)|(u' & -> & Hu)].
    + left. by exists w.
    + right. by exists u'.
Qed.
(** a part of a text that ends with a line end has no line feed *)
Lemma cut_line_none (l u w : gostr) : "010"%char ∉ l -> w <> [] -> l ++ line_end = u ++ w -> "010"%char ∉ u.
Proof.
  intros Hl Hw E Hu. destruct w as [|a w] using rev_ind; [done|]. clear IHw Hw.
  assert ((l ++ ["013"%char]) ++ ["010"%char] = (u ++ w) ++ [a]) as E' by (by rewrite <- !app_assoc).
  apply app_inj_tail in E' as [E' _]. assert ("010"%char ∈ l ++ ["013"%char]) as Hi by (rewrite E'; apply elem_of_app; by left).
  apply elem_of_app in Hi as [Hi|Hi]; [done|]. apply elem_of_list_singleton in Hi. discriminate Hi.
Qed.
Lemma no_line (u : gostr) : "010"%char ∉ u -> cut_line u = None /\ read_line u = None.
Proof. intros H. unfold read_line, cut_line. by rewrite index_byte_notin. Qed.

(** the header *)
Lemma line_bytes kv : plain_line kv -> "010"%char ∉ kv.1 ++ L ": " ++ kv.2.
Proof.
  intros H. pose proof H as (_ & _ & Hv & _). rewrite !elem_of_app. intros [Hi|[Hi|Hi]]; [by eapply plain_key in Hi as (_ & _ & ?)| |done].
  revert Hi. by apply (bool_decide_eq_true _); vm_compute.
Qed.
Lemma mime_header_cut hs : Forall plain_line hs -> forall (u w : gostr) fuel m, w <> [] -> concat (map header_line hs) ++ line_end = u ++ w -> mime_header fuel u m = None.
Proof.
  induction 1 as [|kv hs H Hhs IH]; intros u w fuel m Hw E; (destruct fuel as [|fuel]; [done|]); cbn [map concat app] in E; cbn [mime_header].
  - unfold read_continued. rewrite (proj2 (no_line u (cut_line_none [] u w ltac:(by apply not_elem_of_nil) Hw E))). done.
  - rewrite <- app_assoc in E. symmetry in E. destruct (cut_cases _ _ _ _ E) as [(w' & Hw' & E')|(u' & -> & E')].
    + unfold read_continued. rewrite (proj2 (no_line u (cut_line_none (kv.1 ++ L ": " ++ kv.2) u w' (line_bytes kv H) Hw' ltac:(rewrite <- E'; unfold header_line; by rewrite <- !app_assoc)))). done.
    + destruct (read_continued_line kv u' H) as (x & E1 & E2).
      { intros a Ha. apply (lines_head hs [] Hhs). rewrite app_nil_r, <- E'. destruct u'; [discriminate Ha|exact Ha]. }
      rewrite E1. pose proof H as (Hk & _). destruct (kv.1 ++ ":"%char :: x) as [|c y] eqn:Exy; [by destruct kv.1|]. rewrite <- Exy.
      rewrite index_byte_skip; cycle 1. { intros Hi. by eapply plain_key in Hi as (? & _). }
      destruct (seqb _ []); (eapply IH; [exact Hw|by rewrite E']).
Qed.
Lemma header_cut hs (u w : gostr) : Forall plain_line hs -> w <> [] -> concat (map header_line hs) ++ line_end = u ++ w -> ReadMIMEHeader u = None.
Proof.
  intros H Hw E. unfold ReadMIMEHeader. destruct u as [|a u]; [done|]. destruct (lwsp a); [done|]. eapply mime_header_cut; [exact H|exact Hw|exact E].
Qed.

(** the content *)
Lemma scan_absent (sep s : gostr) : sep <> [] -> (forall x z, s <> x ++ sep ++ z) -> scan sep s = None.
Proof.
  intros Hn. induction s as [|a s IH]; intros H.
  - cbn [scan]. by destruct sep.
  - cbn [scan]. destruct (has_prefix sep (a :: s)) eqn:E.
    + exfalso. apply has_prefix_spec in E as [z E]. by apply (H [] z).
    + cbn [andb]. rewrite IH; [done|]. intros x z Ez. apply (H (a :: x) z). by rewrite Ez.
Qed.
Lemma content_cut b data (u w : gostr) : "013"%char ∉ b -> separates b data -> w <> [] -> data ++ line_end ++ L "--" ++ b = u ++ w ->
  part_content b crlf u = None.
Proof.
  intros Hb Hs Hw E. assert ("013"%char ∉ L "--" ++ b) as Hsep.
  { rewrite elem_of_app. intros [Hi|Hi]; [|done]. revert Hi. by apply (bool_decide_eq_true _); vm_compute. }
  unfold part_content. destruct (has_prefix (dashBoundary b) u) eqn:Ep.
  - exfalso. apply has_prefix_spec in Ep as [z ->]. unfold dashBoundary in E. rewrite <- (app_assoc _ z) in E.
    destruct (cut_cases _ _ _ _ (eq_sym E)) as [(w' & Hw' & E')|(u' & E' & E'')].
    + apply (Hs [] w'). cbn [app]. rewrite (app_assoc (L "--")). by rewrite E'.
    + destruct u' as [|a u']; [|injection E'' as -> _].
      * apply (Hs [] []). cbn [app]. rewrite app_nil_r in E'. by rewrite <- E', app_nil_r.
      * apply Hsep. rewrite E'. apply elem_of_app. right. left.
  - cbn [andb]. apply scan_absent; [done|]. intros x z ->. change crlf with line_end in E. unfold dashBoundary in E. rewrite <- !app_assoc in E.
    destruct (cut_cases _ _ _ _ (eq_sym E)) as [(w' & Hw' & ->)|(u' & -> & E')].
    + rewrite <- app_assoc in E. apply app_inv_head in E.
      assert (length w' < 2 + length (L "--" ++ b) \/ 2 + length (L "--" ++ b) <= length w')%nat as [Hl|Hl] by lia.
      * apply Hw'. apply (line_end_inside (L "--" ++ b) Hsep w' [] (z ++ w)); [|exact Hl]. rewrite app_nil_r, <- !app_assoc. exact E.
      * rewrite (app_assoc (L "--") b), (app_assoc line_end (L "--" ++ b) (z ++ w)) in E.
        destruct (cut_cases _ _ _ _ (eq_sym E)) as [(v & Hv & Ev)|(v & Ev & _)].
        -- apply (separates_inside b _ Hs x v). rewrite Ev. by rewrite <- !app_assoc.
        -- assert (v = []) as ->. { apply (f_equal length) in Ev. rewrite !app_length in Ev. rewrite app_length in Hl. change (length line_end) with 2%nat in Ev. destruct v; [done|]. cbn [length] in Ev. lia. }
           rewrite app_nil_r in Ev. apply (separates_inside b _ Hs x []). rewrite <- Ev. by rewrite <- !app_assoc, app_nil_r.
    + apply (f_equal length) in E'. rewrite !app_length in E'. destruct w; [done|]. cbn [length] in E'. lia.
Qed.

(** the boundary *)
Lemma next_err b (u : gostr) first : boundary b -> "010"%char ∉ u -> isFinalBoundary b crlf u = false ->
  next_part b (S (length (before_body first ++ u))) first crlf false (before_body first ++ u) = Some NErr.
Proof.
  intros Hb Hu Hf. destruct first.
  - cbn [before_body app next_part]. by rewrite (proj1 (no_line u Hu)), Hf.
  - change (before_body false) with line_end. cbn [next_part].
    pose proof (crlf_cut [] u ltac:(by apply not_elem_of_nil)) as E. cbn [app] in E. rewrite E. cbv iota.
    destruct (not_delimiter b false Hb) as [-> ->]. change (seqb line_end crlf) with true. cbv iota. cbn [length app line_end next_part].
    change ("013"%char :: "010"%char :: u) with (line_end ++ u). by rewrite (proj1 (no_line u Hu)), Hf.
Qed.
Lemma not_final b (u : gostr) : (forall z, u <> (L "--" ++ b) ++ L "--" ++ z) -> isFinalBoundary b crlf u = false.
Proof.
  intros H. unfold isFinalBoundary. destruct (has_prefix (dashBoundary b ++ L "--") u) eqn:E; [|done]. exfalso.
  apply has_prefix_spec in E as [z ->]. apply (H z). unfold dashBoundary. by rewrite <- !app_assoc.
Qed.

Lemma read_parts_cut b qp is body : boundary b -> body_text b is body -> forall u v first fuel mem vals vs fs,
  body = u ++ v -> (forall is', ~ body_text b is' u) -> (length u < fuel)%nat ->
  read_parts b qp fuel first crlf (before_body first ++ u) mem vals vs fs = Some None.
Proof.
  intros Hb Hbody. destruct (dash_bytes b Hb) as [Hcr Hlf].
  induction Hbody as [ep Hep|i is t rest Ht Hs Hr IH]; intros u v first [|fuel] mem vals vs fs E Hn Hf; try lia.
  - cbn [read_parts]. rewrite next_err; [done|done|..]; symmetry in E; rewrite (app_assoc (L "--") b), (app_assoc (L "--" ++ b)) in E;
      (destruct (cut_cases _ _ _ _ E) as [(w & Hw & E')|(e & -> & E')]).
    + intros Hi. assert ("010"%char ∈ (L "--" ++ b) ++ L "--") as Hi' by (rewrite E'; apply elem_of_app; by left).
      apply elem_of_app in Hi' as [?|Hi']; [done|]. revert Hi'. by apply (bool_decide_eq_true _); vm_compute.
    + assert (e = ["013"%char]) as ->.
      { destruct e as [|a e]; [by destruct (Hn []); rewrite app_nil_r; rewrite <- !app_assoc; rewrite <- (app_nil_r (L "--")) at 2; apply bt_end; left|].
        destruct Hep as [->|[z ->]]; [done|]. cbn [app line_end] in E'. injection E' as -> E'. destruct e as [|c e]; [done|]. injection E' as -> E'.
        destruct (Hn []). rewrite <- !app_assoc. apply bt_end. right. by exists e. }
      intros Hi. rewrite !elem_of_app in Hi. destruct Hi as [[Hi|Hi]|Hi]; [by apply Hlf, elem_of_app| |]; revert Hi; by apply (bool_decide_eq_true _); vm_compute.
    + apply not_final. intros z ->. apply (f_equal length) in E'. rewrite !app_length in E'. destruct w; [done|]. cbn [length] in E'. lia.
    + assert (e = ["013"%char]) as ->.
      { destruct e as [|a e]; [by destruct (Hn []); rewrite app_nil_r; rewrite <- !app_assoc; rewrite <- (app_nil_r (L "--")) at 2; apply bt_end; left|].
        destruct Hep as [->|[z ->]]; [done|]. cbn [app line_end] in E'. injection E' as -> E'. destruct e as [|c e]; [done|]. injection E' as -> E'.
        destruct (Hn []). rewrite <- !app_assoc. apply bt_end. right. by exists e. }
      unfold isFinalBoundary, dashBoundary. rewrite has_prefix_app, drop_app. reflexivity.
  - symmetry in E. rewrite (app_assoc (L "--") b), (app_assoc (L "--" ++ b)) in E.
    destruct (cut_cases _ _ _ _ E) as [(w & Hw & E')|(u1 & -> & E1)].
    + (* in the boundary line *)
      cbn [read_parts]. rewrite next_err; [done|done|by eapply cut_line_none|]. apply not_final. intros z ->.
      rewrite <- !app_assoc in E'. apply app_inv_head in E'. apply app_inv_head in E'. done.
    + (* behind it *)
      pose proof Ht as Ht0. destruct Ht as [d before after Hd Eh Ho].
      set (hs := before ++ (L "Content-Disposition", d) :: after).
      assert (Forall plain_line hs) as Hp.
      { rewrite Eh in Ho. apply Forall_app in Ho as [H1 H2]. apply Forall_app. split; [eapply Forall_impl; [exact H1|]; apply other_plain|].
        constructor; [by eapply disposition_plain|]. eapply Forall_impl; [exact H2|]; apply other_plain. }
      assert (forall y : gostr, concat (map header_line before) ++ header_line (L "Content-Disposition", d) ++ concat (map header_line after) ++ line_end ++ y =
        (concat (map header_line hs) ++ line_end) ++ y) as Et.
      { intros y. unfold hs. rewrite map_app, concat_app. cbn [map concat]. by rewrite <- !app_assoc. }
      assert (read_parts b qp (S fuel) first crlf (before_body first ++ ((L "--" ++ b) ++ line_end) ++ u1) mem vals vs fs =
        match ReadMIMEHeader u1 with None => Some None | Some (h, s) => match part_content b crlf s with None => Some None | Some _ =>
          read_parts b qp (S fuel) first crlf (before_body first ++ ((L "--" ++ b) ++ line_end) ++ u1) mem vals vs fs end end) as Hr1.
      { cbn [read_parts]. rewrite <- (app_assoc (L "--" ++ b)).
        rewrite (next_part_found b _ first (NPart crlf u1) Hb); cycle 1. { by eexists. } { intros e f Hf'. by apply next_part_delimiter. }
        destruct (ReadMIMEHeader u1) as [[h s]|]; [|done]. by destruct (part_content b crlf s) as [[raw s']|]. }
      rewrite <- !app_assoc in E1. rewrite <- ?app_assoc in E1. rewrite Et in E1.
      destruct (cut_cases _ _ _ _ E1) as [(w & Hw & E')|(u2 & -> & E2)].
      { rewrite Hr1. by rewrite (header_cut hs u1 w). }
      assert (ReadMIMEHeader ((concat (map header_line hs) ++ line_end) ++ u2) = Some (add_lines hs ∅, u2)) as Hrd.
      { rewrite <- app_assoc. by apply ReadMIMEHeader_lines. }
      destruct (body_start b is rest Hr) as (y & Ey & Hy).
      assert (u2 ++ v = (it_data i ++ line_end ++ L "--" ++ b) ++ y) as E3 by (rewrite E2, Ey; by rewrite <- !app_assoc).
      destruct (cut_cases _ _ _ _ E3) as [(w & Hw & E')|(u3 & -> & E4)].
      { rewrite Hr1, Hrd. rewrite (content_cut b (it_data i) u2 w); [done|by apply boundary_bytes|done|done|done]. }
      clear Hr1 Hrd. set (u' := (L "--" ++ b) ++ u3).
      assert (after_boundary u3 = true) as Hau. { destruct u3 as [|a u3]; [done|]. destruct y as [|c y]; [done|]. by injection E4 as -> _. }
      destruct (read_parts_step b qp i _ u' Hb Ht0 Hs (ex_intro _ u3 (conj eq_refl Hau))) as (h & _ & Hstep).
      specialize (Hstep first fuel mem vals vs fs).
      assert (before_body first ++ L "--" ++ b ++ line_end ++ (concat (map header_line before) ++ header_line (L "Content-Disposition", d) ++ concat (map header_line after) ++ line_end ++ it_data i) ++ line_end ++ u' =
        before_body first ++ ((L "--" ++ b) ++ line_end) ++ (concat (map header_line hs) ++ line_end) ++ (it_data i ++ line_end ++ L "--" ++ b) ++ u3) as Eall.
      { unfold u'. rewrite Et. by rewrite <- !app_assoc. }
      rewrite Eall in Hstep. rewrite Hstep. cbv zeta.
      assert (forall mem vals vs fs, read_parts b qp fuel false crlf (before_body false ++ u') mem vals vs fs = Some None) as Hgo.
      { intros mem' vals' vs' fs'. apply (IH u' v); [|intros is' Hx|unfold u'; rewrite !app_length in *; change (length line_end) with 2%nat in *; lia].
        - rewrite Ey, <- E4. unfold u'. by rewrite <- !app_assoc.
        - apply (Hn (i :: is')). pose proof (bt_part b i is' _ u' Ht0 Hs Hx) as Hbt. 
          assert (forall p q : gostr, p = q -> body_text b (i :: is') p -> body_text b (i :: is') q) as Hsub by (by intros p q ->).
          eapply Hsub; [|exact Hbt]. apply (app_inv_head (before_body first)). exact Eall. }
      destruct (decide _); [apply Hgo|]. destruct (is_file i); destruct (_ <? _)%Z; first [done|apply Hgo].
Qed.

Theorem net_multi_cut b is ct u v qp max : boundary b -> type_text b ct -> body_text b is (u ++ v) -> (forall is', ~ body_text b is' u) ->
  net_multi qp max ct u = None.
Proof.
  intros Hb Hct Hbody Hn. unfold net_multi. destruct (type_boundary b ct Hb Hct) as (ps & Hp & Hpb).
  assert (seqb ct [] = false) as -> by (by destruct Hct). rewrite Hp. cbn [andb]. change (seqb (L "multipart/form-data") (L "multipart/form-data")) with true. cbv iota.
  rewrite Hpb. unfold ReadForm.
  pose proof (read_parts_cut b qp is _ Hb Hbody u v true (S (length u)) max (max + 10 * 1024 * 1024)%Z ∅ ∅ eq_refl Hn ltac:(lia)) as E.
  change (before_body true ++ u) with u in E. by rewrite E.
Qed.

(** ** The calls of a handler *)
Section Broken.
Variable qp : gostr -> option gostr.
Variable max : Z.
Variable late : bool.
Variable memory : Z.
Variable r : request.
Variable b body : gostr.
Variable ps : list (gostr * gostr).
Hypothesis Hm : rq_method r ∈ [L "POST"; L "PUT"; L "PATCH"].
Hypothesis Hb : boundary b.
Hypothesis Ht : type_text b (h_get (rq_header r) (L "Content-Type")).
Hypothesis Hnone : net_multi qp max (h_get (rq_header r) (L "Content-Type")) body = None.
Variable q : gostr.
Hypothesis Hq : asks r q.
Hypothesis Hps : query_text q ps true.
Notation inc := (net_incoming qp max r body).
Definition queried (s : forms upload) : Prop := exists f, fm_form s = Some f /\ forall k, default [] (f !! k) = values_of k ps.
Definition broken (s : forms upload) : Prop := fm_multi s = None /\ (queried s \/ fm_form s = None /\ fm_post s = None).

Lemma broken_media : net_media (h_get (rq_header r) (L "Content-Type")) = (L "multipart/form-data", true, true).
Proof. unfold net_media. destruct (type_boundary b _ Hb Ht) as (pm & -> & Hpm). rewrite bool_decide_eq_true_2; [done|]. by eexists. Qed.
Lemma broken_type : seqb (h_get (rq_header r) (L "Content-Type")) [] = false.
Proof. by destruct Ht. Qed.
Lemma broken_post : has_post_body inc = true.
Proof. unfold has_post_body. cbn [in_req net_incoming]. rewrite !elem_of_cons, elem_of_nil in Hm. by destruct Hm as [->|[->|[->|[]]]]. Qed.
Lemma ParseForm_broken s : broken s -> exists s', ParseForm inc s = (s', true) /\ broken s' /\ queried s' /\ fm_parsed s' = fm_parsed s.
Proof.
  intros (H1 & H2). destruct (ParseQuery_holds _ _ _ Hps) as [Hu Hok]. rewrite <- (asks_raw _ _ Hq) in Hu, Hok.
  unfold ParseForm. cbn [in_url net_incoming]. destruct (ParseQuery (raw_query r)) as [url ok] eqn:Eu. cbn [fst snd] in Hu, Hok |- *. subst ok.
  destruct H2 as [(f & Hf & Hv)|[Hf Hp]]; rewrite Hf.
  - assert (forall x, queried (mkForms (Some f) x (fm_multi s) (fm_parsed s) (fm_reads s))) as Hqd by (intros x; exists f; done).
    destruct (match fm_post s with Some p => (p, true) | None => _ end) as [post ok] eqn:E. 
    assert (ok = true) as ->.
    { destruct (fm_post s); [by injection E|]. rewrite broken_post in E. unfold parsePostForm in E. cbn [in_req in_media net_incoming] in E.
      rewrite broken_type, broken_media in E. change (seqb (L "multipart/form-data") (L "application/x-www-form-urlencoded")) with false in E. by injection E. }
    eexists. split; [reflexivity|]. split; [|split; [apply Hqd|done]]. split; [done|left; apply Hqd].
  - rewrite Hp, broken_post. unfold parsePostForm. cbn [in_req in_media net_incoming]. rewrite broken_type, broken_media.
    change (seqb (L "multipart/form-data") (L "application/x-www-form-urlencoded")) with false. cbv iota.
    assert (queried (mkForms (Some (copyValues ∅ url)) (Some ∅) (fm_multi s) (fm_parsed s) (fm_reads s))) as Hqd.
    { exists (copyValues ∅ url). split; [done|]. intros k. rewrite <- (holds_of url ps k Hu). unfold copyValues, of. rewrite lookup_union_with, lookup_empty.
      by destruct (url !! k). }
    eexists. split; [reflexivity|]. split; [|split; [exact Hqd|done]]. split; [done|by left].
Qed.
Lemma ParseMultipartForm_broken n s : broken s -> exists s', ParseMultipartForm late inc n s = (s', false) /\ broken s' /\ queried s' /\ fm_parsed s' = fm_parsed s.
Proof.
  intros Hs. assert (exists s1, (match fm_form s with None => ParseForm inc s | Some _ => (s, true) end) = (s1, true) /\ broken s1 /\ queried s1 /\ fm_parsed s1 = fm_parsed s)
    as (s1 & E1 & B1 & Q1 & P1).
  { destruct (fm_form s) eqn:Ef; [|by apply ParseForm_broken]. exists s. split; [done|]. split; [done|]. split; [|done]. destruct Hs as (_ & [?|[? _]]); [done|congruence]. }
  unfold ParseMultipartForm. rewrite E1. cbn [negb andb]. rewrite (proj1 B1).
  assert (multipartReader inc = true) as ->.
  { unfold multipartReader. cbn [in_req in_media net_incoming]. by rewrite broken_type, broken_media. }
  cbn [negb]. assert (in_multi inc (length (fm_reads s1)) = None) as ->. { cbn [in_multi net_incoming]. by destruct (length (fm_reads s1)). }
  eexists. split; [reflexivity|]. split; [|split; [exact Q1|exact P1]]. split; [done|left; exact Q1].
Qed.
Lemma broken_multipart : is_multipart r = true.
Proof.
  apply is_multipart_true. by apply (type_request r b).
Qed.
Lemma POM_broken s : broken s -> exists s', ParseFormOrMultipartForm late inc memory s = (s', fm_parsed s) /\ broken s' /\ (fm_parsed s = false -> queried s') /\ (fm_parsed s = true -> s' = s) /\ fm_parsed s' = true.
Proof.
  intros Hs. unfold ParseFormOrMultipartForm. destruct (fm_parsed s) eqn:Ep; [by exists s|]. cbn [in_req net_incoming]. rewrite broken_multipart.
  destruct (ParseMultipartForm_broken memory (mkForms (fm_form s) (fm_post s) (fm_multi s) true (fm_reads s)) Hs) as (s' & E & B & Q & P). by exists s'.
Qed.
Lemma queried_value s k : queried s -> default [] (default ∅ (fm_form s) !! k) = values_of k ps.
Proof. intros (f & -> & Hf). exact (Hf k). Qed.
Lemma broken_choice : NewBindinger (rq_method r) (filterFlags (h_get (rq_header r) (L "Content-Type"))) = BMultipart.
Proof.
  rewrite (media_filter _ _ (type_media b _ Ht)). rewrite !elem_of_cons, elem_of_nil in Hm. by destruct Hm as [->|[->|[->|[]]]].
Qed.
(** what holds of a state and the flag of [query_only] *)
Definition broken_at (d : bool) (s : forms upload) : Prop := broken s /\ fm_parsed s = d /\ (d = true -> queried s).
Lemma asks_BJSON c : asks_form (CBindWith c) -> c ∉ [BJSON; BXML].
Proof. intros [?|[[? ?]|(b' & [= <-] & H)]]; done. Qed.
Lemma form_BindWith_broken bd d s : broken_at d s -> bd ∉ [BJSON; BXML] -> exists s' a, form_BindWith late inc memory bd s = (s', a) /\ broken_at true s' /\
  if d then finds_query_only ps (CBindWith bd) a else a = APanic.
Proof.
  intros (Hs & Hd & Hf) Hbd. assert (form_BindWith late inc memory bd s = let '(s, ok) := ParseFormOrMultipartForm late inc memory s in
      if negb ok then (s, APanic)
      else match bd with
      | BForm =>
          let '(s, ok) := match fm_form s with None => ParseForm inc s | Some _ => (s, true) end in
          (s, if ok : bool then ASource (default ∅ (fm_form s)) ∅ else AError)
      | BMultipart =>
          let '(s, ok) := match fm_multi s with None => ParseMultipartForm late inc memory s | Some _ => (s, true) end in
          (s, if ok : bool then match fm_multi s with Some (vs, fs) => ASource vs fs | None => APanic end else AError)
      | _ => (s, AOther)
      end) as ->.
  { destruct bd; try reflexivity; exfalso; apply Hbd; apply (bool_decide_eq_true _); vm_compute; reflexivity. }
  destruct (POM_broken s Hs) as (s' & -> & B & Q1 & Q2 & Q3). rewrite Hd in *. destruct d; cbn [negb].
  - rewrite (Q2 eq_refl) in *. clear Q1 Q2 Q3 s'. specialize (Hf eq_refl). destruct bd.
    + exfalso. apply Hbd. apply (bool_decide_eq_true _); vm_compute; reflexivity.
    + exfalso. apply Hbd. apply (bool_decide_eq_true _); vm_compute; reflexivity.
    + destruct Hf as (f & Hf & Hv). rewrite Hf. do 2 eexists. split; [reflexivity|]. split; [split; [done|split; [done|intros _; exists f; split; [exact Hf|exact Hv]]]|]. rewrite Hf. exact (fq_form ps f Hv).
    + rewrite (proj1 B). destruct (ParseMultipartForm_broken memory s B) as (s' & -> & B' & Q' & P'). do 2 eexists. split; [reflexivity|].
      split; [split; [done|split; [congruence|done]]|]. apply fq_upload. by right.
    + do 2 eexists. split; [reflexivity|]. split; [done|]. apply fq_other, (bool_decide_eq_true _); vm_compute; reflexivity.
    + do 2 eexists. split; [reflexivity|]. split; [done|]. apply fq_other, (bool_decide_eq_true _); vm_compute; reflexivity.
  - do 2 eexists. split; [reflexivity|]. split; [|done]. split; [done|]. split; [done|auto].
Qed.
Lemma fdo_broken c d s : broken_at d s -> exists s' a, fdo late inc memory c s = (s', a) /\
  ((asks_form c /\ broken_at true s' /\ if d then finds_query_only ps c a else a = APanic) \/
   (~ asks_form c /\ broken_at d s' /\ finds_query_only ps c a)).
Proof.
  intros Hs. destruct c as [k|k|k|bd|]; cbn [fdo].
  - destruct Hs as (Hs & Hd & Hf). destruct (POM_broken s Hs) as (s' & -> & B & Q1 & Q2 & Q3). do 2 eexists. split; [reflexivity|]. left.
    split; [by right; left; exists k|]. rewrite Hd in *. destruct d.
    + rewrite (Q2 eq_refl) in *. split; [done|]. rewrite queried_value by auto. constructor.
    + split; [|done]. split; [done|]. split; [done|auto].
  - unfold FormFile. destruct Hs as (Hs & Hd & Hf). rewrite (proj1 Hs). destruct (ParseMultipartForm_broken defaultMaxMemory s Hs) as (s' & -> & B & Q & P).
    cbn [negb]. do 2 eexists. split; [reflexivity|]. right. split; [by intros [?|[[? ?]|(? & ? & ?)]]|]. split; [|constructor]. split; [done|]. split; [congruence|done].
  - unfold FormValue. destruct Hs as (Hs & Hd & Hf).
    assert (exists s', match fm_form s with Some _ => s | None => fst (ParseMultipartForm late inc defaultMaxMemory s) end = s' /\ broken s' /\ queried s' /\ fm_parsed s' = fm_parsed s)
      as (s' & -> & B & Q & P).
    { destruct (fm_form s) eqn:Ef.
      - exists s. split; [done|]. split; [done|]. split; [|done]. destruct Hs as (_ & [?|[? _]]); [done|congruence].
      - destruct (ParseMultipartForm_broken defaultMaxMemory s Hs) as (s' & -> & B & Q & P). by exists s'. }
    do 2 eexists. split; [reflexivity|]. right. split; [by intros [?|[[? ?]|(? & ? & ?)]]|]. split; [split; [done|split; [congruence|done]]|].
    rewrite queried_value by done. constructor.
  - destruct (decide (bd ∈ [BJSON; BXML])) as [Hj|Hj].
    + exists s, AOther. split; [rewrite !elem_of_cons, elem_of_nil in Hj; by destruct Hj as [->|[->|[]]]|]. right. split; [intros Ha; by apply asks_BJSON in Ha|].
      split; [done|]. apply fq_other. rewrite !elem_of_cons in Hj. rewrite !elem_of_cons. tauto.
    + destruct (form_BindWith_broken bd d s Hs Hj) as (s' & a & -> & B & Ha). exists s', a. split; [done|]. left. split; [right; right; by exists bd|]. done.
  - cbn [in_req net_incoming]. rewrite broken_choice. destruct Hs as (Hs & Hd & Hf). destruct (POM_broken s Hs) as (s' & -> & B & Q1 & Q2 & Q3). rewrite Hd in *. destruct d.
    + rewrite (Q2 eq_refl) in *. assert (BMultipart ∉ [BJSON; BXML]) as Hx by (apply (bool_decide_eq_true _); vm_compute; reflexivity).
      destruct (form_BindWith_broken BMultipart true s) as (s2 & a & -> & B2 & Ha); [done|exact Hx|]. exists s2, a. split; [done|]. left. split; [by left|]. split; [done|].
      inversion Ha; subst; [by apply fq_upload; left|]. exfalso. match goal with H : BMultipart ∈ _ |- _ => revert H end. apply (bool_decide_eq_true _). vm_compute. reflexivity.
    + do 2 eexists. split; [reflexivity|]. left. split; [by left|]. split; [|done]. split; [done|]. split; [done|auto].
Qed.
Lemma fdos_broken cs d s : broken_at d s -> exists s' l, fdos late inc memory cs s = (s', l) /\ query_only ps d cs l.
Proof.
  revert d s. induction cs as [|c cs IH]; intros d s Hs.
  - exists s, []. split; [done|]. constructor.
  - cbn [fdos]. destruct (fdo_broken c d s Hs) as (s1 & a & -> & [(Hc & B & Ha)|(Hc & B & Ha)]).
    + destruct (IH _ _ B) as (s2 & l & -> & Hl). exists s2, (a :: l). split; [done|]. destruct d; [by apply qo_next|]. subst. by apply qo_panic.
    + destruct (IH _ _ B) as (s2 & l & -> & Hl). exists s2, (a :: l). split; [done|]. by apply qo_next.
Qed.
Theorem calls_broken cs : exists s l, fdos late inc memory cs no_forms = (s, l) /\ query_only ps false cs l.
Proof. apply fdos_broken. split; [|done]. split; [done|by right]. Qed.
End Broken.

(** ** A request of another type *)
Lemma media_params_type fuel m v ps d ps' ok : media_params fuel m v ps = Some (d, ps', ok) -> ok = true -> d = m.
Proof.
  revert v ps. induction fuel as [|fuel IH]; intros v ps; [done|]. cbn [media_params]. destruct (trim_left_space v) as [|a w]; [congruence|].
  destruct (consumeMediaParam (a :: w)) as [[[key value] rest]|].
  - destruct (contains_byte "*" key); [congruence|]. destruct (ps !! key); [congruence|]. apply IH.
  - destruct (seqb (trim_space (a :: w)) (L ";")); congruence.
Qed.
Lemma net_multi_other qp max ct body : (forall x y z, ct = x ++ y ++ z -> map lower_byte y <> L "multipart/form-data") -> net_multi qp max ct body = None.
Proof.
  intros H. unfold net_multi. destruct (seqb ct []); [done|]. destruct (ParseMediaType ct) as [[d ps] ok] eqn:E. destruct ok; [|done]. cbn [andb].
  destruct (seqb d (L "multipart/form-data")) eqn:Ed; [|done]. apply seqb_true in Ed as ->. exfalso. unfold ParseMediaType in E.
  set (i := match index_byte ";" ct with Some i => i | None => length ct end) in E.
  destruct (negb (checkMediaTypeDisposition _)); [congruence|]. destruct (media_params _ _ _ _) as [[[d p] ok]|] eqn:Em; [|congruence]. injection E as -> -> ->.
  apply media_params_type in Em; [|done]. destruct (trim_space_trimmed (to_lower (take i ct))) as (l & r & E & _).
  rewrite <- Em in E. unfold to_lower in E.
  apply map_eq_app in E as (x & yz & Ex & _ & E). apply map_eq_app in E as (y & z & -> & E & _).
  apply (H x y (z ++ drop i ct)); [|exact E]. rewrite <- (take_drop i ct) at 1. rewrite Ex. by rewrite <- !app_assoc.
Qed.

(** ** Bodies with a spoilt boundary line *)
Lemma lwsp_blank a : lwsp a = true <-> blank a.
Proof. unfold lwsp, blank. by rewrite orb_true_iff, !Ascii.eqb_eq. Qed.
Lemma blanks_dropped x : drop_while lwsp (x ++ line_end) = line_end -> Forall blank x.
Proof.
  induction x as [|a x IH]; [done|]. cbn [app drop_while]. destruct (lwsp a) eqn:E.
  - intros H. constructor; [by apply lwsp_blank|auto].
  - intros H. apply (f_equal length) in H. cbn [length] in H. rewrite app_length in H. change (length line_end) with 2%nat in H. lia.
Qed.
Lemma blanks_nonempty x : drop_while lwsp (x ++ line_end) <> [].
Proof. induction x as [|a x IH]; [done|]. cbn [app drop_while]. by destruct (lwsp a). Qed.
Lemma spoilt_line b x : spoils x -> isBoundaryDelimiterLine b false crlf ((L "--" ++ b) ++ x ++ line_end) = None /\
  isFinalBoundary b crlf ((L "--" ++ b) ++ x ++ line_end) = false.
Proof.
  intros (_ & (a & y & Ex & Ha) & Hx). unfold isBoundaryDelimiterLine, isFinalBoundary, dashBoundary. split.
  - rewrite has_prefix_app, drop_app. cbn [andb]. destruct (seqb _ crlf) eqn:E; [|done]. apply seqb_true in E.
    apply blanks_dropped in E. by destruct (Hx _ E).
  - destruct (has_prefix ((L "--" ++ b) ++ L "--") ((L "--" ++ b) ++ x ++ line_end)) eqn:E; [|done]. cbn [andb].
    apply has_prefix_spec in E as [z E]. rewrite <- !app_assoc in E. do 2 apply app_inv_head in E.
    assert (exists x', x = L "--" ++ x') as [x' ->].
    { destruct x as [|c1 [|c2 x']]; [done| |].
      - cbn in E. injection E as -> E. discriminate E.
      - cbn in E. injection E as -> -> _. by exists x'. }
    replace ((L "--" ++ b) ++ (L "--" ++ x') ++ line_end) with (((L "--" ++ b) ++ L "--") ++ (x' ++ line_end)) by (by rewrite <- !app_assoc).
    rewrite drop_app. apply orb_false_iff. split.
    + apply seqb_false, blanks_nonempty.
    + apply seqb_false. intros H. apply blanks_dropped in H. by destruct (Hx _ H).
Qed.
Lemma next_part_spoilt b x z e fuel : boundary b -> (1 <= fuel)%nat -> spoils x ->
  next_part b fuel false crlf e ((L "--" ++ b) ++ x ++ line_end ++ z) = Some NErr.
Proof.
  intros Hb Hf Hx. destruct fuel as [|fuel]; [lia|]. cbn [next_part].
  assert ("010"%char ∉ (L "--" ++ b) ++ x) as Hn.
  { rewrite elem_of_app. intros [Hi|Hi]; [by apply dash_bytes in Hi|]. by destruct Hx. }
  rewrite (app_assoc _ x), crlf_cut, <- app_assoc by done. destruct (spoilt_line b x Hx) as [-> ->]. destruct e; [done|].
  assert (seqb ((L "--" ++ b) ++ x ++ line_end) crlf = false) as ->; [|done].
  apply seqb_false. intros H. change (L "--") with ["-"; "-"]%char in H. cbn [app] in H. discriminate H.
Qed.
Lemma read_parts_spoilt b qp body : boundary b -> spoilt_text b body -> forall first fuel mem vals vs fs,
  (length body < fuel)%nat -> read_parts b qp fuel first crlf (before_body first ++ body) mem vals vs fs = Some None.
Proof.
  intros Hb Hs. induction Hs as [i t x z Ht Hd Hx|i t rest Ht Hd Hr IH]; intros first fuel mem vals vs fs Hl; (destruct fuel as [|fuel]; [lia|]).
  - assert (after_boundary (x ++ line_end ++ z) = true) as Hau.
    { destruct Hx as (_ & (a & y & -> & [[->| ->]| ->]) & _); reflexivity. }
    destruct (read_parts_step b qp i t (L "--" ++ b ++ x ++ line_end ++ z) Hb Ht Hd) as (h & _ & Hstep).
    { exists (x ++ line_end ++ z). split; [by rewrite <- app_assoc|done]. }
    rewrite Hstep. cbv zeta.
    assert (forall mem vals vs fs, read_parts b qp fuel false crlf (before_body false ++ L "--" ++ b ++ x ++ line_end ++ z) mem vals vs fs = Some None) as Hgo.
    { intros mem' vals' vs' fs'. destruct fuel as [|fuel]; [cbn [length app] in Hl; change (L "--") with ["-"; "-"]%char in Hl; cbn [length app] in Hl; lia|].
      cbn [read_parts]. rewrite (app_assoc (L "--") b). rewrite (next_part_found b _ false NErr Hb); [done|by eexists|].
      intros e f Hf. by apply next_part_spoilt. }
    destruct (decide _); [apply Hgo|]. destruct (is_file i); destruct (_ <? _)%Z; first [done|apply Hgo].
  - assert (exists y, rest = (L "--" ++ b) ++ y /\ after_boundary y = true) as Hst.
    { destruct Hr; eexists; (split; [by rewrite <- app_assoc|done]). }
    destruct (read_parts_step b qp i t rest Hb Ht Hd Hst) as (h & _ & Hstep). rewrite Hstep. cbv zeta.
    assert (forall mem vals vs fs, read_parts b qp fuel false crlf (before_body false ++ rest) mem vals vs fs = Some None) as Hgo.
    { intros. apply IH. rewrite !app_length in Hl. change (length line_end) with 2%nat in Hl. lia. }
    destruct (decide _); [apply Hgo|]. destruct (is_file i); destruct (_ <? _)%Z; first [done|apply Hgo].
Qed.
Theorem net_multi_spoilt b ct body qp max : boundary b -> type_text b ct -> spoilt_text b body -> net_multi qp max ct body = None.
Proof.
  intros Hb Hct Hbody. unfold net_multi. destruct (type_boundary b ct Hb Hct) as (ps & Hp & Hpb).
  assert (seqb ct [] = false) as -> by (by destruct Hct). rewrite Hp. cbn [andb]. change (seqb (L "multipart/form-data") (L "multipart/form-data")) with true. cbv iota.
  rewrite Hpb. unfold ReadForm.
  pose proof (read_parts_spoilt b qp body Hb Hbody true (S (length body)) max (max + 10 * 1024 * 1024)%Z ∅ ∅ ltac:(lia)) as E.
  change (before_body true ++ body) with body in E. by rewrite E.
Qed.
