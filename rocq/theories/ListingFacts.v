(** The listings against ListingSpec. *)
From Coq Require Import Sorted.
From Verif Require Import Base GoStr Strconv Pattern Tree GoStrFacts TreeSpec ListFacts TreeFacts TreeTop Router RouterSpec RouterFacts
  RouterDump MethodFacts HandlerFacts RouterProps Listing ListingSpec.

(** ** Text *)
Lemma number_eq n : number n = itoa_nat n.
Proof.
  unfold number, itoa, itoa_nat, format_Z. destruct (Z.of_nat n) eqn:E; [| |lia]; f_equal; lia.
Qed.
Lemma fmt_left_ok w s : filled_right w s (fmt_left w s).
Proof. eexists. split; [reflexivity|]. unfold fmt_left. rewrite app_length, replicate_length. lia. Qed.
Lemma fmt_int_ok w n : filled_left w (number n) (fmt_int w n).
Proof.
  rewrite number_eq. eexists. split; [reflexivity|]. unfold fmt_int. rewrite app_length, replicate_length. lia.
Qed.
Lemma lines_app a b : lines (a ++ b) = lines a ++ lines b.
Proof. unfold lines. by rewrite map_app, concat_app. Qed.

(** ** Sorting *)
Lemma str_ltb_spec a b : str_ltb a b = true <-> bytes_lt a b.
Proof.
  split.
  - revert b. induction a as [|x a IH]; intros [|y b] Hl; cbn [str_ltb] in Hl; try discriminate.
    + apply (bl_prefix []).
    + unfold byte_of in Hl. destruct (N.ltb_spec (N_of_ascii x) (N_of_ascii y)) as [Hxy|Hxy].
      * by apply (bl_here []).
      * destruct (N.ltb_spec (N_of_ascii y) (N_of_ascii x)) as [Hyx|Hyx]; [discriminate|].
        assert (x = y) as ->.
        { rewrite <- (ascii_N_embedding x), <- (ascii_N_embedding y). f_equal. lia. }
        apply IH in Hl. destruct Hl as [s c t|s p q t u Hpq].
        -- apply (bl_prefix (y :: s)).
        -- by apply (bl_here (y :: s)).
  - intros Hb. destruct Hb as [s c t|s p q t u Hpq]; induction s as [|x s IH]; cbn [str_ltb app]; try done.
    + by rewrite N.ltb_irrefl.
    + unfold byte_of. by apply N.ltb_lt in Hpq as ->.
    + by rewrite N.ltb_irrefl.
Qed.
Lemma bytes_lt_app s a b : bytes_lt (s ++ a) (s ++ b) <-> bytes_lt a b.
Proof.
  rewrite <- !str_ltb_spec. induction s as [|x s IH]; [done|]. cbn [app str_ltb]. by rewrite N.ltb_irrefl.
Qed.
Lemma bytes_trichotomy a b : bytes_lt a b \/ a = b \/ bytes_lt b a.
Proof.
  revert b. induction a as [|x a IH]; intros [|y b].
  - auto.
  - left. apply (bl_prefix []).
  - right. right. apply (bl_prefix []).
  - destruct (N.lt_trichotomy (N_of_ascii x) (N_of_ascii y)) as [Hl|[He|Hl]].
    + left. by apply (bl_here []).
    + assert (x = y) as -> by (rewrite <- (ascii_N_embedding x), <- (ascii_N_embedding y); by f_equal).
      destruct (IH b) as [Hb|[->|Hb]]; [left|right; left|right; right]; [|done|];
      by apply (bytes_lt_app [y]).
    + right. right. by apply (bl_here []).
Qed.
Lemma str_ltb_trans a b c : str_ltb a b = true -> str_ltb b c = true -> str_ltb a c = true.
Proof.
  revert b c. induction a as [|x a IH]; intros [|y b] [|z c] H1 H2; try discriminate; [done|].
  cbn [str_ltb] in *. 
  destruct (N.ltb_spec (byte_of x) (byte_of y)), (N.ltb_spec (byte_of y) (byte_of x)),
    (N.ltb_spec (byte_of y) (byte_of z)), (N.ltb_spec (byte_of z) (byte_of y)),
    (N.ltb_spec (byte_of x) (byte_of z)), (N.ltb_spec (byte_of z) (byte_of x)); try lia; try done.
  by eapply IH.
Qed.
Lemma bytes_lt_trans a b c : bytes_lt a b -> bytes_lt b c -> bytes_lt a c.
Proof. rewrite <- !str_ltb_spec. apply str_ltb_trans. Qed.
Lemma bytes_lt_irrefl a : ~ bytes_lt a a.
Proof. rewrite <- str_ltb_spec. induction a as [|x a IH]; [done|]. cbn [str_ltb]. by rewrite N.ltb_irrefl. Qed.

Lemma insert_str_elem x l y : y ∈ insert_str x l <-> y = x \/ y ∈ l.
Proof.
  induction l as [|z l IH]; cbn [insert_str].
  - rewrite elem_of_list_singleton, elem_of_nil. tauto.
  - destruct (str_ltb z x); rewrite !elem_of_cons; [rewrite IH|]; tauto.
Qed.
Lemma sort_strings_elem l y : y ∈ sort_strings l <-> y ∈ l.
Proof. induction l as [|x l IH]; [done|]. cbn [sort_strings]. by rewrite insert_str_elem, IH, elem_of_cons. Qed.
Lemma insert_str_sorted x l : x ∉ l -> StronglySorted bytes_lt l -> StronglySorted bytes_lt (insert_str x l).
Proof.
  intros Hx Hs. induction Hs as [|y l Hs IH Hy]; cbn [insert_str]; [by repeat constructor|].
  apply not_elem_of_cons in Hx as [Hxy Hx]. destruct (str_ltb y x) eqn:E.
  - constructor; [by apply IH|]. apply Forall_forall. intros z Hz. apply insert_str_elem in Hz as [->|Hz].
    + by apply str_ltb_spec.
    + rewrite Forall_forall in Hy. by apply Hy.
  - assert (bytes_lt x y) as Hlt.
    { destruct (bytes_trichotomy x y) as [?|[?|Hyx]]; [done|done|]. apply str_ltb_spec in Hyx. congruence. }
    constructor; [by constructor|]. constructor; [done|]. eapply Forall_impl; [exact Hy|]. intros z Hz.
    by eapply bytes_lt_trans.
Qed.
Lemma sort_strings_sorted l : NoDup l -> StronglySorted bytes_lt (sort_strings l).
Proof.
  induction 1 as [|x l Hx Hn IH]; [constructor|]. cbn [sort_strings]. apply insert_str_sorted; [|done].
  by rewrite sort_strings_elem.
Qed.

Section Facts.
Context {A : Type}.
Variable re_ok : gostr -> bool.
Implicit Types h : list (ev A).
Implicit Types ops : list (rop A).

(** ** The list of all routes *)
Lemma route_of_line h l rt : route_of h l rt ->
  is_route h l (rt_method rt) /\ runs h l (length (rt_handlers rt)) /\ has_uri h l (rt_uri rt).
Proof.
  intros (path & m & Hl & Hm & E1 & E2 & _ & _ & Hc). subst m. split_and!; [done| |].
  - exists path. split; [done|]. symmetry. by eapply Forall2_length.
  - by exists path.
Qed.

Lemma all_routes ops hp r opts mem e mem' : run_ops ops [] = Ok hp ->
  Handler re_ok hp r opts mem = (Ok e, mem') ->
  exists ls, leaves (history ops) r ls /\
    ((ls = [] /\ PrintRawAllRoutes e = lines [L "no route"]) \/
     (ls <> [] /\ exists ts, Forall2 (all_line (history ops)) ls ts /\ PrintRawAllRoutes e = lines ts)).
Proof.
  intros Hr Hh. destruct (middleware_order _ _ _ _ _ _ _ _ Hr Hh) as (ls & Hls & Hf).
  exists ls. split; [done|]. unfold PrintRawAllRoutes. destruct Hf as [|l rt ls rts Hl Hf].
  { left. done. }
  right. split; [done|]. assert (Hall : Forall2 (route_of (history ops)) (l :: ls) (rt :: rts)) by (by constructor). clear Hl Hf Hls.
  remember (l :: ls) as k eqn:Ek. clear Ek. revert Hall. generalize (rt :: rts). clear. intros rts Hall.
  exists (map (fun v => L "[" ++ fmt_left 7 (rt_method v) ++ L " : " ++ number (length (rt_handlers v)) ++ L "] " ++ rt_uri v) rts).
  split.
  - apply Forall2_fmap_r. eapply Forall2_impl; [exact Hall|]. intros l rt Hrt.
    apply route_of_line in Hrt as (H1 & H2 & H3). do 4 eexists. split_and!; [exact H1|apply fmt_left_ok|exact H2|exact H3|done].
  - unfold lines. rewrite map_map. f_equal. apply map_ext. intros v. rewrite number_eq. by rewrite <- !app_assoc.
Qed.

(** ** The routes of a method *)
Lemma store_raw h r opts mem e mem' : wf h -> Handler re_ok (heap_of h) r opts mem = (Ok e, mem') ->
  exists raw, rs_slice (en_store e) = map set_variant raw /\ NoDup (map rkey raw) /\
    rs_map (en_store e) = list_to_map (map (fun rt => (rkey rt, rt)) raw).
Proof.
  intros Hw Hh. pose proof (Handler_root' _ _ _ _ _ _ _ Hw Hh) as Hroot.
  rewrite Handler_collect in Hh. destruct (collect (heap_of h) r opts) as [[o rs]| |] eqn:Hc; [|done|done].
  inversion Hh as [[Hb Hm]]. clear Hh. apply rbind_ok in Hb as (ms & Hb & He). inversion He; subst e. clear He.
  apply (collect_parts h r opts Hw Hroot) in Hc as (Ho & rs0 & rts & Hf & Hnd & Hsl & Hso & Hlg & ->). simpl in *.
  exists (List.filter named rts). split_and!; [done|done|]. destruct Hso as [-> _]. by rewrite Hsl.
Qed.

Lemma checkMethod_eq m : checkMethod m =
  match MethodIndex (to_upper m) with Some i => Ok (to_upper m, i) | None => Panic (L "unsupport method: " ++ to_upper m) end.
Proof. reflexivity. Qed.

Lemma sorted_fun {B C} (R : B -> B -> Prop) (S : C -> C -> Prop) (f : C -> B -> Prop) l k :
  (forall a b x y, f a x -> f b y -> R x y -> S a b) ->
  StronglySorted R l -> Forall2 f k l -> StronglySorted S k.
Proof.
  intros Hi Hs. revert k. induction Hs as [|x l Hs IH Hx]; intros k Hf; inversion Hf as [|a ? k' ? Ha Hf']; subst; constructor.
  - by apply IH.
  - apply Forall_forall. intros b Hb. destruct (Forall2_lookup_of _ _ _ _ Hf' Hb) as (y & Hy & Hby).
    rewrite Forall_forall in Hx. eapply Hi; eauto.
Qed.

Lemma by_method ops hp r opts mem e mem' m0 m : run_ops ops [] = Ok hp ->
  Handler re_ok hp r opts mem = (Ok e, mem') -> m = to_upper m0 ->
  (m ∉ _HTTP_METHODS_NAMES /\ is_panic (PrintRawRoutes e m0)) \/
  (m ∈ _HTTP_METHODS_NAMES /\ exists ls text, PrintRawRoutes e m0 = Ok text /\
    (forall l, l ∈ ls <-> routes_under (history ops) r m l) /\
    StronglySorted (fun a b => exists u v, has_uri (history ops) a u /\ has_uri (history ops) b v /\ bytes_lt u v) ls /\
    ((ls = [] /\ text = lines [L "no route"]) \/
     (ls <> [] /\ exists ts, Forall2 (method_line (history ops)) ls ts /\ text = lines ts))).
Proof.
  intros Hr Hh ->. unfold PrintRawRoutes. rewrite checkMethod_eq.
  destruct (MethodIndex (to_upper m0)) as [i|] eqn:Hi.
  2: { left. split; [|by eexists]. rewrite MethodIndex_names. intros [j Hj]. congruence. }
  right. split; [apply MethodIndex_names; eauto|]. cbn [rbind]. set (m := to_upper m0) in *.
  destruct (middleware_order _ _ _ _ _ _ _ _ Hr Hh) as (ls & [Hle Hls] & Hf).
  apply run_heap in Hr as [-> Hw]. set (h := history ops) in *.
  destruct (store_raw _ _ _ _ _ _ Hw Hh) as (raw & Hsl & Hnd & Hmap).
  rewrite Hsl in Hf. apply (Forall2_fmap_r set_variant) in Hf. clear Hsl.
  set (us := omap _ (map_to_list (rs_map (en_store e)))).
  (* the keys *)
  assert (Hlk : forall mm u rt, rs_map (en_store e) !! (mm, u) = Some rt <-> rt ∈ raw /\ rkey rt = (mm, u)).
  { intros mm u rt. rewrite Hmap. rewrite <- elem_of_list_to_map.
    - rewrite elem_of_list_fmap. split.
      + intros (rt' & Heq & Hin). inversion Heq; subst. done.
      + intros [Hin Hk]. exists rt. by rewrite Hk.
    - unfold fst. by rewrite <- list_fmap_compose. }
  assert (Hus : forall u, u ∈ us <-> exists rt, rt ∈ raw /\ rkey rt = (m, u)).
  { intros u. unfold us. rewrite elem_of_list_omap. split.
    - intros ([[mm u'] rt] & Hin & Hs). cbn [fst snd] in Hs. destruct (seqb_spec mm m) as [->|]; [|done].
      injection Hs as ->. apply elem_of_map_to_list, Hlk in Hin as [Hin Hk]. eauto.
    - intros (rt & Hin & Hk). exists ((m, u), rt). cbn [fst snd]. rewrite seqb_refl. split; [|done].
      apply elem_of_map_to_list, Hlk. done. }
  assert (Hun : NoDup us).
  { unfold us. clear. 
    assert (Hk : NoDup (map_to_list (rs_map (en_store e))).*1) by apply NoDup_fst_map_to_list.
    revert Hk. generalize (map_to_list (rs_map (en_store e))). intros l Hk.
    induction l as [|[[mm u] rt] l IH]; [constructor|]. cbn [fmap list_fmap fst] in Hk. apply NoDup_cons in Hk as [Hn Hk].
    cbn [omap list_omap fst snd]. destruct (seqb_spec mm m) as [->|]; [|by apply IH]. constructor; [|by apply IH].
    intros Hin. apply elem_of_list_omap in Hin as ([[mm' u'] rt'] & Hin & Hs). cbn [fst snd] in Hs.
    destruct (seqb_spec mm' m) as [->|]; [|done]. injection Hs as ->. apply Hn. apply elem_of_list_fmap.
    by exists (m, u, rt'). }
  (* the routes in that order *)
  assert (Hex : forall u, u ∈ us -> exists l rt, l ∈ ls /\ rs_map (en_store e) !! (m, u) = Some rt /\ route_of h l (set_variant rt) /\ rkey rt = (m, u)).
  { intros u Hu. apply Hus in Hu as (rt & Hin & Hk). destruct (Forall2_lookup_of_r _ _ _ _ Hf Hin) as (l & Hl & Hro).
    exists l, rt. split_and!; [done| |done|done]. apply Hlk. done. }
  set (rel := fun (l : nat) (u : gostr) => l ∈ ls /\ exists rt, rs_map (en_store e) !! (m, u) = Some rt /\ route_of h l (set_variant rt) /\ rkey rt = (m, u)).
  assert (exists k, Forall2 rel k (sort_strings us)) as [k Hk].
  { assert (Hall : Forall (fun u => u ∈ us) (sort_strings us)).
    { apply Forall_forall. intros u. by rewrite sort_strings_elem. }
    induction Hall as [|u l Hu Hl [k IH]]; [exists []; constructor|].
    destruct (Hex u Hu) as (x & rt & H1 & H2 & H3 & H4). exists (x :: k). constructor; [|done]. split; [done|]. eauto. }
  set (f := fun v => match rs_map (en_store e) !! (m, v) with
                     | Some rt => L "[" ++ fmt_int 3 (length (rt_handlers rt)) ++ L "] " ++ v ++ newline
                     | None => []
                     end).
  assert (Hline : forall l u, rel l u -> exists t, method_line h l t /\ f u = t ++ newline).
  { intros l u (Hl & rt & Hrt & Hro & Hkey). apply route_of_line in Hro as (H1 & H2 & H3).
    eexists. split.
    - do 3 eexists. split_and!; [exact H2|apply fmt_int_ok|exact H3|reflexivity].
    - unfold f. cbv beta. match goal with |- match ?x with _ => _ end = _ => replace x with (Some rt) by (symmetry; exact Hrt) end. unfold rkey in Hkey. injection Hkey as Hm Hu. cbn [set_variant rt_handlers rt_uri].
      rewrite Hu. by rewrite <- !app_assoc. }
  exists k. eexists. split; [|split; [|split]].
  - assert (match us with [] => Ok no_route | _ :: _ => Ok (concat (map f (sort_strings us))) end =
      Ok (match us with [] => no_route | _ :: _ => concat (map f (sort_strings us)) end)) as -> by (by destruct us).
    reflexivity.
  - intros l. split.
    + intros Hl. destruct (Forall2_lookup_of _ _ _ _ Hk Hl) as (u & _ & Hin & rt & _ & Hro & Hkey).
      apply Hle in Hin as [_ Hp]. split; [|done]. apply route_of_line in Hro as (H1 & _). simpl in H1.
      unfold rkey in Hkey. injection Hkey as Hm _. by rewrite <- Hm.
    + intros [Hm Hp]. assert (l ∈ ls) as Hl by (apply Hle; eauto).
      destruct (Forall2_lookup_of _ _ _ _ Hf Hl) as (rt & Hin & Hro).
      pose proof Hro as Hro'. apply route_of_line in Hro' as (H1 & _ & (path & Hlin & Huri)). simpl in H1, Huri.
      assert (rt_method rt = m) as Hrm.
      { destruct H1 as (? & ? & ? & H1), Hm as (? & ? & ? & Hm). congruence. }
      assert (rt_uri rt ∈ us) as Hu by (apply Hus; exists rt; unfold rkey; by rewrite Hrm).
      rewrite <- (sort_strings_elem us) in Hu. destruct (Forall2_lookup_of_r _ _ _ _ Hk Hu) as (l' & Hl' & Hin' & rt' & Hrt' & Hro2 & Hkey).
      assert (rt' = rt) as ->.
      { assert (rs_map (en_store e) !! (m, rt_uri rt) = Some rt) as E by (apply Hlk; unfold rkey; by rewrite Hrm). congruence. }
      assert (l' = l) as ->; [|done].
      (* both carry the same route *)
      assert (NoDup ls) as Hnl by (by eapply sorted_nodup).
      apply elem_of_list_lookup in Hin' as [j' Hj'], Hl as [j Hj].
      destruct (Forall2_lookup_l _ _ _ _ _ Hf Hj) as (a & Ha & Hra).
      destruct (Forall2_lookup_l _ _ _ _ _ Hf Hj') as (b & Hb & Hrb).
      pose proof (route_of_fun _ _ _ _ Hra Hro) as E1. pose proof (route_of_fun _ _ _ _ Hrb Hro2) as E2.
      assert (rkey a = rkey b) as Eab.
      { unfold rkey. apply (f_equal (fun v => (rt_method v, rt_uri v))) in E1, E2. simpl in E1, E2. congruence. }
      assert (j = j') as ->; [|congruence].
      eapply NoDup_lookup; [exact Hnd| |].
      * rewrite list_lookup_fmap, Ha. reflexivity.
      * rewrite list_lookup_fmap, Hb. simpl. by rewrite Eab.
  - eapply sorted_fun; [|by apply sort_strings_sorted|exact Hk]. cbv beta.
    intros a b u v (_ & rt & _ & Ha & Hka) (_ & rt' & _ & Hb & Hkb) Huv.
    apply route_of_line in Ha as (_ & _ & Ha), Hb as (_ & _ & Hb). simpl in Ha, Hb.
    unfold rkey in Hka, Hkb. injection Hka as _ <-. injection Hkb as _ <-. eauto.
  - destruct us as [|u us'] eqn:Eus.
    + left. apply Forall2_length in Hk as Hlen. simpl in Hlen. destruct k; [|done]. done.
    + right. rewrite <- Eus in *. split.
      { intros ->. apply Forall2_nil_inv_l in Hk. assert (u ∈ sort_strings us) as Hu by (rewrite sort_strings_elem, Eus; left).
        rewrite Hk in Hu. by apply elem_of_nil in Hu. }
      clear Hle Hls Hf Hnd Hmap Hlk Hus Hun Hex Eus.
      induction Hk as [|l v k vs Hlv Hk IH]; [exists []; split; [constructor|done]|].
      destruct IH as (ts & Hts & Heq). destruct (Hline _ _ Hlv) as (t & Ht & Hfv).
      exists (t :: ts). split; [by constructor|]. cbn [map concat]. rewrite Heq, Hfv. done.
Qed.
End Facts.
