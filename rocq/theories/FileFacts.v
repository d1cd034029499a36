(** Facts about handlers that send a file. *)
From Verif Require Import Base GoStr GoStrFacts Strconv Pattern PatternSpec PatternFacts Tree TreeSpec Header Router PathClean Ctx CtxFacts
  Util UtilSpec UtilFacts Getters Content ContentFacts TraceSpec Engine EngineSpec ServeFacts ServeProps ServeTop ServeThms ServeDispatch
  StaticReg Static StaticSpec StaticFacts StaticPaths HelperSpec HttpFacts CorsFacts RedirectFacts HelperFacts CorsMore HelperLog NetFile FileSpec.
Local Open Scope Z_scope.

(** ** Dots *)
Lemma slashy_spec a : isSlashRune a = true <-> slashy a.
Proof. unfold isSlashRune, slashy. destruct (Ascii.eqb_spec a "/"), (Ascii.eqb_spec a "\"); cbn; naive_solver. Qed.
Lemma fields_nonempty s : fields_slash s <> [].
Proof. destruct s as [|a s]; cbn; [done|]. destruct (isSlashRune a); [done|]. by destruct (fields_slash s). Qed.
Lemma fields_app a s t : isSlashRune s = true -> fields_slash (a ++ s :: t) = fields_slash a ++ fields_slash t.
Proof.
  intros Hs. induction a as [|c a IH]; cbn [app fields_slash]; [by rewrite Hs|]. destruct (isSlashRune c); [by rewrite IH|].
  rewrite IH. pose proof (fields_nonempty a). by destruct (fields_slash a).
Qed.
Definition edge (b : gostr) : Prop := b = [] \/ exists s b', b = s :: b' /\ slashy s.
Lemma fields_inv s : exists x l, fields_slash s = x :: l /\ (exists b, s = x ++ b /\ edge b) /\
  forall y, y ∈ l -> exists a c b, s = (a ++ [c]) ++ y ++ b /\ slashy c /\ edge b.
Proof.
  induction s as [|a s (x & l & E & (b & Hb & He) & Hl)]; cbn [fields_slash].
  - exists [], []. split; [done|]. split; [by exists []; split; [|left]|]. intros y Hy. by apply elem_of_nil in Hy.
  - destruct (isSlashRune a) eqn:Ea.
    + apply slashy_spec in Ea. exists [], (fields_slash s). split; [done|]. split; [exists (a :: s); split; [done|right; by eexists _, _]|].
      rewrite E. intros y Hy. apply elem_of_cons in Hy as [->|Hy].
      * exists [], a, b. split; [by rewrite Hb|done].
      * destruct (Hl y Hy) as (a1 & c & b1 & -> & Hc & Hb1). by exists (a :: a1), c, b1.
    + rewrite E. exists (a :: x), l. split; [done|]. split; [exists b; by rewrite Hb|].
      intros y Hy. destruct (Hl y Hy) as (a1 & c & b1 & -> & Hc & Hb1). by exists (a :: a1), c, b1.
Qed.
Lemma dotted_spec s : containsDotDot s = true <-> dotted s.
Proof.
  unfold containsDotDot. rewrite existsb_exists. split.
  - intros (y & Hy & E). apply seqb_true in E. subst y. apply elem_of_list_In in Hy.
    destruct (fields_inv s) as (x & l & E & (b & Hb & He) & Hl). rewrite E in Hy. apply elem_of_cons in Hy as [<-|Hy].
    + exists [], b. split; [done|]. split; [by left|]. exact He.
    + destruct (Hl _ Hy) as (a & c & b1 & -> & Hc & Hb1). exists (a ++ [c]), b1. split; [done|]. split; [right; by eexists _, _|exact Hb1].
  - intros (a & b & -> & Ha & Hb). exists (L ".."). split; [|by apply seqb_true]. apply elem_of_list_In.
    assert (L ".." ∈ fields_slash (L ".." ++ b)) as Hin.
    { destruct Hb as [->|(c & b' & -> & Hc)]; [by left|]. rewrite fields_app by (by apply slashy_spec). by left. }
    destruct Ha as [->|(a' & c & -> & Hc)]; [done|]. rewrite <- app_assoc. cbn [app]. rewrite fields_app by (by apply slashy_spec).
    apply elem_of_app. by right.
Qed.

(** ** Names *)
Lemma Split_last name : last_element name (fst (filepath_Split name)) (snd (filepath_Split name)).
Proof.
  unfold filepath_Split. destruct (last_index_byte "/" name) as [i|] eqn:E; cbn [fst snd].
  - assert (exists a b, name = a ++ "/"%char :: b /\ "/"%char ∉ b) as (a & b & -> & Hb).
    { clear -E. revert i E. induction name as [|c s IH]; intros i E; [done|]. cbn [last_index_byte] in E.
      destruct (last_index_byte "/" s) as [j|] eqn:Ej.
      - destruct (IH j eq_refl) as (a & b & -> & Hb). by exists (c :: a), b.
      - destruct (Ascii.eqb_spec c "/") as [->|]; [|done]. exists [], s. split; [done|]. clear -Ej. induction s as [|c s IH]; [apply not_elem_of_nil|].
        cbn [last_index_byte] in Ej. destruct (last_index_byte "/" s); [done|]. destruct (Ascii.eqb_spec c "/"); [done|].
        apply not_elem_of_cons. split; [done|by apply IH]. }
    rewrite last_index_app in E by done. injection E as <-. unfold last_element. rewrite take_drop.
    replace (S (length a)) with (length (a ++ ["/"%char])) by (rewrite app_length; cbn; lia).
    rewrite (cons_middle _ a b), app_assoc. rewrite drop_app, take_app.
    split; [done|]. split; [done|]. right. by exists a.
  - split; [done|]. split; [|by left]. clear -E. induction name as [|c s IH]; [apply not_elem_of_nil|].
    cbn [last_index_byte] in E. destruct (last_index_byte "/" s); [done|]. destruct (Ascii.eqb_spec c "/"); [done|].
    apply not_elem_of_cons. split; [done|by apply IH].
Qed.
Lemma last_unique name d f d' f' : last_element name d f -> last_element name d' f' -> d = d' /\ f = f'.
Proof.
  intros (E & Hf & Hd) (E' & Hf' & Hd').
  assert (forall d f, "/"%char ∉ f -> d = [] \/ ends_in d (L "/") -> snd (filepath_Split (d ++ f)) = f) as H.
  { clear. intros d f Hf [->|(u & ->)]; unfold filepath_Split.
    - by rewrite last_index_none.
    - rewrite <- app_assoc. change (L "/" ++ f) with ("/"%char :: f). rewrite last_index_app by done. cbn [snd].
      replace (S (length u)) with (length (u ++ ["/"%char])) by (rewrite app_length; cbn; lia).
      by rewrite (cons_middle _ u f), app_assoc, drop_app. }
  assert (f = f') as <-.
  { rewrite <- (H d f), <- (H d' f') by done. by rewrite <- E, <- E'. }
  split; [|done]. rewrite E in E'. by apply app_inv_tail in E'.
Qed.
Lemma opened_unique name p p' : opened name p -> opened name p' -> p = p'.
Proof. intros (d & f & H & ->) (d' & f' & H' & ->). destruct (last_unique _ _ _ _ _ H H') as [-> ->]. done. Qed.

Lemma Clean_segs_eq c p q : (forall b, clean_segs b [] (split_byte "/" (c :: p)) = clean_segs b [] (split_byte "/" (c :: q))) ->
  Clean (c :: p) = Clean (c :: q).
Proof. intros H. unfold Clean. by rewrite H. Qed.
Lemma split_single f : "/"%char ∉ f -> split_byte "/" f = [f].
Proof. intros H. apply split_byte_None. by apply index_byte_None. Qed.
Lemma walk_single f : "/"%char ∉ f -> (walk [] (split_byte "/" f) = [] /\ (f = [] \/ f = L "." \/ f = L "..")) \/
  (walk [] (split_byte "/" f) = [f] /\ proper f).
Proof.
  intros H. rewrite split_single by done. cbn [walk]. case_bool_decide as E1; [left; tauto|]. case_bool_decide as E2; [left; tauto|].
  right. split; [done|]. unfold proper. tauto.
Qed.
Lemma Clean_proper f : proper f -> Clean f = f.
Proof.
  intros (P1 & P2 & P3 & P4). unfold Clean. rewrite split_single by done. apply seqb_false in P1 as P1', P2 as P2', P3 as P3'.
  cbn [clean_segs]. rewrite P1', P2', P3'. cbn [orb rev app join]. destruct f as [|c f]; [done|].
  destruct (Ascii.eqb_spec c "/") as [->|]; [|done]. exfalso. apply P4. left.
Qed.
Lemma dir_open_opened name dir file : last_element name dir file -> opened name (dir_open dir file).
Proof.
  intros H. exists dir, file. split; [done|]. destruct H as (-> & Hf & Hd).
  destruct (dir_open_below dir file) as (l & E & _ & Hl). destruct (walk_single file Hf) as [[W Hc]|[W Hp]]; rewrite W in Hl; subst l.
  - rewrite E. cbn [below]. case_decide as Hdd; [done|]. destruct Hc as [->|[->|?]]; [by rewrite app_nil_r| |done].
    destruct Hd as [->|(u & ->)]; [done|]. destruct u as [|c u]; [done|]. rewrite <- app_assoc.
    apply (Clean_segs_eq c (u ++ "/"%char :: []) (u ++ "/"%char :: L ".")). intros b.
    pose proof (split_byte_app "/" (c :: u) []) as E1. pose proof (split_byte_app "/" (c :: u) (L ".")) as E2. cbn [app] in E1, E2.
    rewrite E1, E2, !clean_segs_app. done.
  - clear E. rewrite decide_False by (by destruct Hp as (_ & _ & ? & _)).
    unfold dir_open. destruct (Clean_rooted file) as (l & -> & _ & Hl). rewrite W in Hl. subst l.
    change (slashed [file]) with ("/"%char :: file). unfold filepath_Join. cbn [List.filter].
    destruct (seqb_spec dir []) as [->|Hne].
    + change (seqb (L ".") []) with false. cbn [negb]. change (seqb ("/"%char :: file) []) with false. cbn [negb].
      change (join (L "/") [L "."; "/"%char :: file]) with (L "./" ++ "/"%char :: file). cbn [app].
      pose proof Hp as (P1 & P2 & P3 & P4). apply seqb_false in P1 as P1', P2 as P2', P3 as P3'.
      change ([] ++ file) with file. rewrite (Clean_proper file) by done.
      unfold Clean. change (L "./" ++ "/"%char :: file) with ("."%char :: "/"%char :: "/"%char :: file). cbn iota.
      cbn [split_byte]. change (Ascii.eqb "/" "/") with true. change (Ascii.eqb "." "/") with false. cbn iota. rewrite split_single by done.
      cbn [clean_segs]. change (seqb ["."%char] []) with false. change (seqb ["."%char] (L ".")) with true. change (seqb [] []) with true. cbn [orb].
      rewrite P1', P2', P3'. cbn [orb rev app join]. by destruct file.
    + apply seqb_false in Hne as Hne'. rewrite Hne'. cbn [negb]. change (seqb ("/"%char :: file) []) with false. cbn [negb].
      destruct Hd as [->|(u & ->)]; [done|].
      change (join (L "/") [u ++ L "/"; "/"%char :: file]) with ((u ++ L "/") ++ L "/" ++ "/"%char :: file).
      assert (forall x y : gostr, (u ++ L "/") ++ x = u ++ "/"%char :: x) as Ea by (intros; by rewrite <- app_assoc).
      rewrite !Ea by exact []. change (L "/" ++ "/"%char :: file) with ("/"%char :: "/"%char :: file).
      assert (forall b, clean_segs b [] (split_byte "/" (u ++ "/"%char :: "/"%char :: "/"%char :: file)) = clean_segs b [] (split_byte "/" (u ++ "/"%char :: file))) as Hs.
      { intros b. rewrite !split_byte_app, !clean_segs_app. cbn [split_byte]. change (Ascii.eqb "/" "/") with true. cbn [clean_segs].
        rewrite seqb_refl. done. }
      destruct u as [|c u].
      * apply (Clean_segs_eq "/" ("/"%char :: "/"%char :: file) file). exact Hs.
      * apply (Clean_segs_eq c (u ++ "/"%char :: "/"%char :: "/"%char :: file) (u ++ "/"%char :: file)). exact Hs.
Qed.
Lemma dir_open_in dir file : "/"%char ∉ file -> dir_open dir (file ++ L "/index.html") = below (dir_open dir file) [L "index.html"].
Proof.
  intros Hf. destruct (dir_open_below dir file) as (l & -> & _ & Hl). destruct (dir_open_below dir (file ++ L "/index.html")) as (l2 & -> & _ & Hl2).
  change (L "/index.html") with ("/"%char :: L "index.html") in Hl2. rewrite split_byte_app in Hl2.
  assert (l2 = l ++ [L "index.html"]) as ->.
  { rewrite Hl2, Hl, split_single by done. change (split_byte "/" (L "index.html")) with [L "index.html"]. cbn [app walk].
    case_bool_decide; [done|]. case_bool_decide; done. }
  destruct (walk_single file Hf) as [[W _]|[W (P1 & P2 & P3 & P4)]]; rewrite W in Hl; subst l; [done|].
  cbn [app]. unfold below. change (join (L "/") [file; L "index.html"]) with (file ++ L "/" ++ L "index.html").
  change (join (L "/") [file]) with file. change (slashed [file; L "index.html"]) with ("/"%char :: file ++ L "/" ++ L "index.html").
  change (slashed [file]) with ("/"%char :: file). change (slashed [L "index.html"]) with (L "/" ++ L "index.html").
  assert (file <> L "/") by (intros ->; apply P4; left).
  set (D := Clean dir). clearbody D.
  destruct (decide (D = L ".")) as [->|HD1]; [by rewrite !decide_False|].
  destruct (decide (D = L "/")) as [->|HD2].
  - rewrite !decide_False; [done|..]; intros E; by apply (f_equal (@tl ascii)) in E.
  - assert (forall c : ascii, D ++ "/"%char :: file <> [c]) as Hlen.
    { intros c E. apply (f_equal length) in E. rewrite app_length in E. cbn in E. destruct file; [done|]. cbn in E. lia. }
    rewrite decide_False by (apply Hlen). rewrite decide_False by (apply Hlen). by rewrite <- app_assoc.
Qed.
Lemma Base_last p dir file : last_element p dir file -> file <> [] -> path_Base p = file.
Proof.
  intros (-> & Hf & Hd) Hne. unfold path_Base. destruct (dir ++ file) as [|a s] eqn:E; [by destruct dir, file|]. rewrite <- E.
  destruct (exists_last Hne) as (f' & c & ->). assert (c <> "/"%char) as Hc by (intros ->; apply Hf, elem_of_app; right; left).
  rewrite app_assoc, trim_right_other, <- app_assoc by done.
  destruct (last_unique (dir ++ f' ++ [c]) _ _ dir (f' ++ [c]) (Split_last _)) as [_ ->]; [by repeat split|]. by destruct f'.
Qed.

(** ** The answer of http.ServeFile *)
Section Answer.
Context {F D : Type}.
Variable raw_query : request -> gostr.
Variable serve : request -> gostr -> gostr -> gostr -> F -> list (gostr * option gostr) * Z * list gostr.
Variable listing : request -> D -> list (gostr * option gostr) * Z * list gostr.
Local Notation net_ServeFile := (net_ServeFile raw_query serve listing).
Local Notation file_answer := (file_answer raw_query serve listing).

Lemma ends_spec p s : has_suffix s p = true <-> ends_in p s.
Proof. apply has_suffix_spec. Qed.
Lemma moved_spec r to : localRedirect raw_query r to = moved to (raw_query r).
Proof.
  unfold localRedirect, moved. destruct (seqb_spec (raw_query r) []) as [->|H]; [by rewrite app_nil_r|]. by rewrite decide_False.
Qed.
Lemma trim_no_slash f : "/"%char ∉ f -> trim_suffix (L "/") f = f.
Proof.
  intros H. unfold trim_suffix. destruct (has_suffix (L "/") f) eqn:E; [|done]. apply has_suffix_last in E as (t & ->).
  exfalso. apply H, elem_of_app. right. left.
Qed.
Lemma serve_file_answer r t etag enc name os : file_answer r t etag enc name os (net_ServeFile r t etag enc name os).
Proof.
  unfold NetFile.net_ServeFile. destruct (containsDotDot (rq_path r)) eqn:Ed.
  { apply fa_dots. by apply dotted_spec. }
  assert (~ dotted (rq_path r)) as Hd by (intros H; apply dotted_spec in H; congruence). clear Ed.
  pose proof (Split_last name) as Hl. destruct (filepath_Split name) as [dir file]. cbn [fst snd] in Hl.
  unfold net_serveFile. destruct (has_suffix (L "/index.html") (rq_path r)) eqn:Ei.
  { rewrite moved_spec. apply fa_index; [done|]. by apply ends_spec. }
  assert (usual r) as Hu by (split; [done|]; intros H; apply ends_spec in H; congruence). clear Ei.
  pose proof (dir_open_opened _ _ _ Hl) as Ho. pose proof (dir_open_in dir file (proj1 (proj2 Hl))) as Hi.
  rewrite (trim_no_slash _ (proj1 (proj2 Hl))), Hi. clear Hi. set (p := dir_open dir file) in *. clearbody p.
  destruct (os p) as [w|d|f] eqn:Ep.
  - destruct w; by eapply fa_failed in Ep.
  - destruct (seqb_spec (rq_path r) []) as [E0|E0]; cbn [orb].
    { rewrite E0, moved_spec. by eapply fa_empty. }
    destruct (has_suffix (L "/") (rq_path r)) eqn:Es; cbn [negb].
    + apply ends_spec in Es. destruct (os (below p [L "index.html"])) as [w|d'|f] eqn:Ef;
        [by eapply fa_list|by eapply fa_list_index|by eapply fa_index_file].
    + rewrite moved_spec. pose proof (Split_last (rq_path r)) as Hr. destruct (filepath_Split (rq_path r)) as [a b]. cbn [fst snd] in Hr.
      assert (b <> []) as Hb.
      { intros ->. destruct Hr as (Hr & _ & Hr'). rewrite app_nil_r in Hr. subst a. destruct Hr' as [?|Hr']; [done|]. apply ends_spec in Hr'. congruence. }
      rewrite (Base_last _ _ _ Hr Hb). by eapply fa_moved.
  - by eapply fa_file.
Qed.
Lemma file_answer_unique r t etag enc name os a b : file_answer r t etag enc name os a -> file_answer r t etag enc name os b -> a = b.
Proof.
  assert (forall dir file : gostr, last_element (rq_path r) dir file -> file <> [] -> ~ ends_in (rq_path r) (L "/")) as Hne.
  { intros dir file (-> & Hf & _) Hn (u & E). destruct (exists_last Hn) as (f' & c & ->). rewrite app_assoc in E.
    apply app_inj_tail in E as [_ ->]. apply Hf, elem_of_app. right. left. }
  assert (forall dir file : gostr, last_element (rq_path r) dir file -> file <> [] -> rq_path r <> []) as Hne'.
  { intros dir file (-> & _) Hn E. by destruct dir, file. }
  assert (ends_in (rq_path r) (L "/") -> rq_path r <> []) as Hne''. { intros (u & ->) E. by destruct u. }
  intros [H1|H1 H2|p w H1 H2 H3|p f H1 H2 H3|p d dr fl H1 H2 H3 H4 H5|p d H1 H2 H3 H4|p d f H1 H2 H3 H4 H5|p d w H1 H2 H3 H4 H5|p d d' H1 H2 H3 H4 H5]
    [K1|K1 K2|p' w' K1 K2 K3|p' f' K1 K2 K3|p' d0 dr' fl' K1 K2 K3 K4 K5|p' d0 K1 K2 K3 K4|p' d0 f' K1 K2 K3 K4 K5|p' d0 w' K1 K2 K3 K4 K5|p' d0 d'' K1 K2 K3 K4 K5];
    try done; try (by destruct H1); try (by destruct K1);
    (pose proof (opened_unique _ _ _ H2 K2) as <-); rewrite H3 in K3; try discriminate K3; simplify_eq; try done;
    try (by exfalso; eapply Hne); try (by exfalso; eapply Hne'); try (by exfalso; apply Hne''); try (rewrite H5 in K5; try discriminate K5; simplify_eq; done).
  destruct (last_unique _ _ _ _ _ H4 K4) as [_ ->]. done.
Qed.
End Answer.

(** ** In an engine *)
Section Top.
Context {A V F D : Type}.
Variable re_ok : gostr -> bool.
Variable re_find : gostr -> gostr -> option (list gostr).
Variable sniff : gostr -> gostr.
Variable parse_form : bool -> request -> gostr * bool -> gmap gostr (list gostr) * bool * gostr.
Variable code : handler A -> prog V.
Variable raw_query : request -> gostr.
Variable serve : request -> gostr -> gostr -> gostr -> F -> list (gostr * option gostr) * Z * list gostr.
Variable listing : request -> D -> list (gostr * option gostr) * Z * list gostr.
Local Notation net_ServeFile := (net_ServeFile raw_query serve listing).
Local Notation file_answer := (file_answer raw_query serve listing).
Local Notation ServeHTTP := (ServeHTTP re_find sniff parse_form code).

Lemma sole_dispatched (e : engine A) v r hs : sole_route re_ok re_find e v r -> dispatched re_ok re_find e r hs -> hs = rt_handlers v.
Proof.
  intros (Hv & Hfit & Hsole) [w Hw Hm Hor|Hno _].
  - destruct Hor as [Hf|(u & Hu & Hver & Hsame)].
    + by rewrite (Hsole w Hw (or_introl Hf)).
    + rewrite (Hsole u Hu (or_intror Hver)) in Hsame. destruct Hsame as (_ & p & Hp1 & Hp2). destruct Hfit as (_ & q & Hq & Hacc).
      rewrite <- (uri_route_fun _ _ _ _ Hp1 Hq) in Hacc. rewrite (Hsole w Hw); [done|]. left. split; [done|]. by exists p.
  - by destruct (Hno v Hv).
Qed.
Lemma answer_valid r t etag enc name os :
  (forall r t etag enc f, 100 <= (serve r t etag enc f).1.2 <= 999) -> (forall r d, 100 <= (listing r d).1.2 <= 999) ->
  100 <= (net_ServeFile r t etag enc name os).1.2 <= 999.
Proof.
  intros H1 H2. destruct (serve_file_answer raw_query serve listing r t etag enc name os) as [| |? []| | | | | |]; cbn; try lia; auto.
Qed.

Lemma file_served ops r0 opts (e : engine A) id x r body en px c' v h name os :
  (forall r t etag enc f, 100 <= (serve r t etag enc f).1.2 <= 999) -> (forall r d, 100 <= (listing r d).1.2 <= 999) ->
  engine_of re_ok ops r0 opts e -> ServeHTTP e id x (arrive r body) = (en, px, c') -> (forall n, ~ refused r n) ->
  sole_route re_ok re_find e v r -> rt_handlers v = [h] -> code h = static_file_handler net_ServeFile name os ->
  en = EDone /\ exists a, file_answer r [] [] [] name os a /\
    rw_sent (cn_rw c') = Some (a.1.2, put_headers a.1.1 ∅) /\
    rw_body (cn_rw c') = if bears_body a.1.2 then concat a.2 else [].
Proof.
  intros V1 V2 He H Href Hsole Hh Hc.
  destruct (dispatched_ran re_ok re_find sniff parse_form code _ _ _ _ _ _ _ _ _ _ _ He H) as [(n & _ & _ & [Hr|(_ & _ & _ & Hno)])|(_ & hs & ps & n & Hd & Hran)].
  - by destruct (Href n).
  - destruct Hsole as (Hv & Hfit & _). by destruct (Hno v Hv).
  - rewrite (sole_dispatched _ _ _ _ Hsole Hd), Hh in Hran. clear Hd.
    apply run_one in Hran as (next & _ & Hr). rewrite Hc in Hr.
    set (x0 := fresh id [h] ps n) in Hr. set (c := log (arrive r body) (EvStart 0)) in Hr.
    assert (cn_rw c = rw_new) as Hw by done. assert (cn_req c = r) as Hq by done. clearbody x0 c.
    pose proof (serve_file_answer raw_query serve listing r [] [] [] name os) as Ha.
    pose proof (answer_valid r [] [] [] name os V1 V2) as Hn. destruct (net_ServeFile r [] [] [] name os) as [[hs' n'] out] eqn:Es. cbn [fst snd] in Hn.
    unfold static_file_handler in Hr.
    destruct (exec_file sniff parse_form net_ServeFile next name os PRet x0 c hs' n' out) as (c1 & E & S1 & B1).
    + by rewrite Hw.
    + rewrite Hw, Hq. exact Es.
    + by apply code_ok.
    + rewrite E in Hr. cbn [Ctx.pexec] in Hr. destruct Hr as [-> Hrw]. split; [done|]. exists (hs', n', out). split; [done|].
      rewrite Hrw, S1, B1, Hw. done.
Qed.

(** ServeFile, anywhere in the chain *)
Lemma serve_file_behind ops r0 opts (e : engine A) id x r body en px c' name os k i l1 l2 :
  (forall r t etag enc f, 100 <= (serve r t etag enc f).1.2 <= 999) -> (forall r d, 100 <= (listing r d).1.2 <= 999) ->
  engine_of re_ok ops r0 opts e ->
  ServeHTTP e id x (arrive r body) = (en, px, c') -> uses_ctx code e ->
  (forall hs, dispatched re_ok re_find e r hs -> exists g, hs !! i = Some g /\ code g = ServeFile raw_query serve listing name os k) ->
  cn_log c' = l1 ++ EvStart i :: l2 -> ~ responded l1 ->
  let h1 := headers_of l1 in
  exists a m l3, file_answer r (h_get h1 (L "Content-Type")) (h_get h1 (L "Etag")) (h_get h1 (L "Content-Encoding")) name os a /\
    l2 = m ++ l3 /\ starts m = [] /\ rw_sent (cn_rw c') = Some (a.1.2, put_headers a.1.1 h1) /\
    (bodiless a.1.2 -> rw_body (cn_rw c') = []) /\ (~ bodiless a.1.2 -> rw_body (cn_rw c') = concat a.2 ++ data_of l3).
Proof.
  intros V1 V2 He H Hu Hd Hl Hn h1.
  destruct (turn_log re_ok re_find sniff parse_form code _ _ _ _ _ _ _ _ _ _ _ (fun q => q = ServeFile raw_query serve listing name os k)
    i l1 l2 He H Hd Hl) as (hs & p & m & l3 & en' & -> & -> & Hdid & R1 & R2).
  set (sv := fun r t etag enc (a : gostr * (gostr -> node F D)) => net_ServeFile r t etag enc a.1 a.2).
  change (ServeFile raw_query serve listing name os k) with (seqp [] (ServeContent (V:=V) sv false (name, os) k)) in Hdid.
  pose proof (content_log re_ok re_find sniff parse_form code sv _ _ _ _ _ _ _ _ _ _ _ hs [] (name, os) k (l1 ++ [EvStart i]) m l3 en'
    (fun r t etag enc a => proj2 (code_ok _) (answer_valid r t etag enc a.1 a.2 V1 V2)) He H (started _ _ _ _ Hl) Hu) as HC. cbv zeta in HC.
  rewrite headers_of_snoc in HC. cbn [hdr_step fold_left] in HC. fold h1 in HC. unfold sv in HC. cbn [fst snd] in HC.
  pose proof (serve_file_answer raw_query serve listing r (h_get h1 (L "Content-Type")) (h_get h1 (L "Etag")) (h_get h1 (L "Content-Encoding")) name os) as Ha.
  destruct (net_ServeFile r _ _ _ name os) as [[hs1 n] out]. destruct HC as (m1 & m2 & -> & S1 & E1 & E2 & E3); try done.
  - rewrite Hl. by lists.
  - rewrite first_code_app. by rewrite (fresh_code _ Hn).
  - exists (hs1, n, out), m1, (m2 ++ l3). split_and!; [done|by lists|done..].
Qed.
End Top.
