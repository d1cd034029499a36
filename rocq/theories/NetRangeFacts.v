(** Ranges of net/http. *)
From Verif Require Import Base GoStr GoStrFacts Strconv StrconvFacts Header Ctx UtilSpec StaticSpec GetterFacts BindingFacts Content CorsFacts NetServe NetFile NetRange RangeSpec.
Local Open Scope Z_scope.

(** ** Blanks *)
Lemma drop_blanks u s : Forall (fun a => ascii_space a = true) u -> drop_while ascii_space (u ++ s) = drop_while ascii_space s.
Proof. induction 1 as [|a u Ha _ IH]; [done|]. cbn [app drop_while]. by rewrite Ha. Qed.
Lemma drop_none s : match s with [] => True | a :: _ => ascii_space a = false end -> drop_while ascii_space s = s.
Proof. destruct s as [|a s]; [done|]. cbn [drop_while]. by intros ->. Qed.
Definition bare (s : gostr) : Prop := (forall a, head s = Some a -> ascii_space a = false) /\ (forall a, last s = Some a -> ascii_space a = false).
Lemma blanks_space u : blanks u -> Forall (fun a => ascii_space a = true) u.
Proof. intros H. eapply Forall_impl; [exact H|]. by intros a [->| ->]. Qed.
Lemma Trim_bare u s v : blanks u -> blanks v -> bare s -> TrimString (u ++ s ++ v) = s.
Proof.
  intros Hu Hv [H1 H2]. apply blanks_space in Hu, Hv. unfold TrimString. rewrite drop_blanks by done.
  assert (Hr : Forall (fun a => ascii_space a = true) (rev v)) by (apply Forall_forall; intros a Ha; rewrite Forall_forall in Hv; apply Hv; by rewrite elem_of_list_In, <- in_rev, <- elem_of_list_In in Ha).
  destruct s as [|a s].
  - cbn [app]. assert (drop_while ascii_space v = []) as ->; [|done]. rewrite <- (app_nil_r v), drop_blanks by done. done.
  - rewrite (drop_none ((a :: s) ++ v)) by (by apply H1). rewrite rev_app_distr, drop_blanks by done. rewrite drop_none; [apply rev_involutive|].
    destruct (rev (a :: s)) as [|b t] eqn:E; [done|]. apply H2. rewrite <- (rev_involutive (a :: s)), E. cbn [rev]. by rewrite last_snoc.
Qed.
Lemma Trim_blanks u : blanks u -> TrimString u = [].
Proof. intros H. rewrite <- (app_nil_r u), <- (app_nil_r (u ++ [])), <- app_assoc. apply (Trim_bare u [] []); [done|constructor|]. by split. Qed.
Lemma digit_space a : is_digit a -> ascii_space a = false.
Proof.
  unfold is_digit, ascii_space. intros H. rewrite !orb_false_iff. repeat split; apply Ascii.eqb_neq; intros ->; cbv in H; destruct H as [H1 H2]; by (destruct H1 || destruct H2).
Qed.
Lemma digits_bare s : Forall is_digit s -> bare s.
Proof.
  intros H. rewrite Forall_forall in H. split; intros a Ha; apply digit_space, H.
  - destruct s; [done|]. injection Ha as ->. left.
  - apply last_Some in Ha as [t ->]. apply elem_of_app. right. left.
Qed.
Lemma piece_bare p s : writes_piece p s -> bare s /\ s <> [] /\ ","%char ∉ s.
Proof.
  assert (Hd : forall t c, Forall is_digit t -> ~ is_digit c -> c ∉ t) by (intros t c Ht Hc Hi; rewrite Forall_forall in Ht; by apply Hc, Ht).
  assert (Hm : ~ is_digit ","%char) by (intros [H1 H2]; by vm_compute in H1).
  intros [a b s' t (S0 & S1 & _) (T0 & T1 & _) _|a s' (S0 & S1 & _)|n s' (S0 & S1 & _)].
  - destruct (digits_bare s' S1) as [D1 _]. destruct (digits_bare t T1) as [_ D2]. split; [split|split].
    + intros c Hc. destruct s' as [|x s']; [done|]. apply D1. done.
    + intros c Hc. destruct t as [|x t _] using rev_ind; [done|]. rewrite app_comm_cons, app_assoc, last_snoc in Hc. apply D2. by rewrite last_snoc.
    + by destruct s'.
    + rewrite elem_of_app, elem_of_cons. intros [H|[H|H]]; [by apply (Hd s' _ S1 Hm)|done|by apply (Hd t _ T1 Hm)].
  - destruct (digits_bare s' S1) as [D1 _]. split; [split|split].
    + intros c Hc. destruct s' as [|x s']; [done|]. apply D1. done.
    + intros c Hc. change (L "-") with ["-"%char] in Hc. rewrite last_snoc in Hc. by injection Hc as <-.
    + by destruct s'.
    + change (L "-") with ["-"%char]. rewrite elem_of_app, elem_of_list_singleton. intros [H|H]; [by apply (Hd s' _ S1 Hm)|done].
  - destruct (digits_bare s' S1) as [_ D2]. split; [split|split].
    + intros c Hc. by injection Hc as <-.
    + intros c Hc. destruct s' as [|x t _] using rev_ind; [done|]. rewrite app_comm_cons, last_snoc in Hc. apply D2. by rewrite last_snoc.
    + done.
    + rewrite elem_of_cons. intros [H|H]; [done|by apply (Hd s' _ S1 Hm)].
Qed.

(** ** Parsing *)
Definition to_range (x : Z * Z) : httpRange := mkRange x.1 (x.2 - x.1 + 1).
Lemma udecimal_parse s z : udecimal s z -> z < 2 ^ 63 -> parse_int 64 s = (z, ErrNone) /\ 0 <= z.
Proof.
  intros (H0 & H1 & ->) H. assert (0 <= dec_value s) by (by apply dec_value_ge). split; [|done].
  apply parse_int_ok. split; [by constructor|]. unfold BindingSpec.fits_int. cbn. lia.
Qed.
Lemma omap_le {A B} (f : A -> option B) l : (length (omap f l) <= length l)%nat.
Proof. induction l as [|x l IH]; [done|]. change (omap f (x :: l)) with (match f x with Some y => y :: omap f l | None => omap f l end). destruct (f x); cbn [length]; lia. Qed.
Section Parse.
Variable strict : bool.
Lemma parse_one_piece size p s : 0 <= size -> writes_piece p s -> sized p -> counts size p ->
  parse_one strict size s = Some (option_map to_range (selected size p)).
Proof.
  intros H0 Hw Hs Hc. unfold parse_one.
  assert (Hd : forall t, Forall is_digit t -> "-"%char ∉ t).
  { intros t Ht Hi. rewrite Forall_forall in Ht. apply Ht in Hi as [H1 H2]. by vm_compute in H1. }
  assert (Ht : forall t, Forall is_digit t -> TrimString t = t).
  { intros t Htd. rewrite <- (app_nil_r t) at 1. apply (Trim_bare [] t []); [constructor|constructor|by apply digits_bare]. }
  destruct Hw as [a b s t Hsa Htb Hab|a s Hsa|n s Hsn]; cbn [sized counts selected] in *.
  - pose proof Hsa as (S0 & S1 & _). pose proof Htb as (T0 & T1 & _).
    rewrite (GetterFacts.index_byte_app "-" s t) by auto.
    replace (take (length s) (s ++ "-"%char :: t)) with s by (by rewrite take_app).
    replace (drop (S (length s)) (s ++ "-"%char :: t)) with t by (change (s ++ "-"%char :: t) with (s ++ ["-"%char] ++ t); by rewrite app_assoc, drop_app_alt by (rewrite app_length; cbn; lia)).
    rewrite !Ht by done. destruct (udecimal_parse s a Hsa) as [Pa ?]; [lia|]. destruct (udecimal_parse t b Htb) as [Pb ?]; [lia|].
    destruct s as [|x s]; [done|]. destruct t as [|y t]; [done|]. rewrite Pa, Pb.
    rewrite (proj2 (Z.ltb_ge a 0)) by lia. destruct (Z.leb_spec size a); [by rewrite decide_False by lia|]. rewrite decide_True by lia.
    rewrite (proj2 (Z.ltb_ge b a)) by lia. cbn [option_map]. unfold to_range. cbn [fst snd]. destruct (Z.leb_spec size b).
    + by rewrite Z.min_r by lia.
    + by rewrite Z.min_l by lia.
  - pose proof Hsa as (S0 & S1 & _). change (L "-") with ["-"%char].
    rewrite (GetterFacts.index_byte_app "-" s []) by auto. rewrite take_app.
    rewrite (drop_ge (s ++ ["-"%char])) by (rewrite app_length; cbn; lia).
    rewrite !Ht by (done || constructor). destruct (udecimal_parse s a Hsa) as [Pa ?]; [lia|].
    destruct s as [|x s]; [done|]. rewrite Pa. rewrite (proj2 (Z.ltb_ge a 0)) by lia.
    destruct (Z.leb_spec size a); [by rewrite decide_False by lia|]. rewrite decide_True by lia.
    cbn [option_map]. unfold to_range. cbn [fst snd]. do 3 f_equal. lia.
  - pose proof Hsn as (S0 & S1 & _). change (index_byte "-" ("-"%char :: s)) with (Some 0%nat). cbv zeta iota.
    change (take 0 ("-"%char :: s)) with (@nil ascii). change (drop 1 ("-"%char :: s)) with s. rewrite (Ht []), (Ht s) by (done || constructor). destruct (udecimal_parse s n Hsn) as [Pn ?]; [lia|].
    assert (match s with [] => true | a :: _ => Ascii.eqb a "-" end = false) as ->.
    { destruct s as [|x s]; [done|]. apply Ascii.eqb_neq. intros ->. apply (Hd _ S1). left. }
    rewrite andb_false_r, Pn. rewrite (proj2 (Z.ltb_ge n 0)), andb_false_r by lia. rewrite decide_True by lia.
    cbn [option_map]. unfold to_range. cbn [fst snd]. destruct (Z.ltb_spec size n); do 2 f_equal; [f_equal; lia..|]. f_equal; lia.
Qed.
Lemma parse_all_items size : forall pss items, Forall2 writes_item pss items -> 0 <= size -> Forall sized (concat pss) -> Forall (counts size) (concat pss) ->
  forall acc no, parse_all strict size items acc no =
    let l := omap (selected size) (concat pss) in
    let r := acc ++ map to_range l in
    if (no || negb (length l =? length (concat pss))%nat) && (length r =? 0)%nat then inl ErrNoOverlap else inr r.
Proof.
  induction 1 as [|ps s pss items Hi _ IH]; intros H0 Hs Hc acc no.
  - cbn [concat omap list_omap map length parse_all]. rewrite app_nil_r. by rewrite orb_false_r.
  - cbn [concat] in Hs, Hc. apply Forall_app in Hs as [Hs1 Hs2]. apply Forall_app in Hc as [Hc1 Hc2].
    destruct Hi as [s Hb|p s u v Hp Hu Hv]; cbn [parse_all].
    + rewrite Trim_blanks by done. cbn [concat app]. by apply IH.
    + destruct (piece_bare p s Hp) as (B1 & B2 & _). rewrite Trim_bare by done. destruct s as [|x s]; [done|].
      rewrite (parse_one_piece size p (x :: s)); [|done|done|exact (Forall_inv Hs1)|exact (Forall_inv Hc1)].
      cbn [concat app omap list_omap]. destruct (selected size p) as [y|]; cbn [option_map]; rewrite IH by done; cbv zeta.
      * cbn [map length]. rewrite <- app_assoc. cbn [app Nat.eqb]. done.
      * cbn [length]. assert ((length (omap (selected size) (concat pss)) =? S (length (concat pss)))%nat = false) as ->.
        { apply Nat.eqb_neq. pose proof (omap_le (selected size) (concat pss)). lia. }
        cbn [negb]. by rewrite orb_true_r.
Qed.
Lemma item_comma ps s : writes_item ps s -> ","%char ∉ s.
Proof.
  assert (Hb : forall u, blanks u -> ","%char ∉ u). { intros u Hu Hi. unfold blanks in Hu. rewrite Forall_forall in Hu. by destruct (Hu _ Hi). }
  intros [s' H|p s' u v H Hu Hv]; [auto|]. rewrite !elem_of_app. intros [Hi|[Hi|Hi]]; [by apply (Hb u)|by apply (piece_bare p s' H)|by apply (Hb v)].
Qed.
Lemma parse_header size ps s : range_header ps s -> 0 <= size -> Forall sized ps -> Forall (counts size) ps ->
  parseRange strict s size = match omap (selected size) ps with [] => inl ErrNoOverlap | l => inr (map to_range l) end.
Proof.
  intros (pss & items & Hi & -> & Hne & ->) H0 Hs Hc. unfold parseRange.
  change (L "bytes=" ++ join (L ",") items) with ("b"%char :: L "ytes=" ++ join (L ",") items) at 1. cbv iota.
  assert (has_prefix (L "bytes=") (L "bytes=" ++ join (L ",") items) = true) as -> by (apply has_prefix_spec; by eexists).
  change (drop 6 (L "bytes=" ++ join (L ",") items)) with (join [","%char] items). rewrite split_join.
  - rewrite (parse_all_items size pss items Hi H0 Hs Hc). cbv zeta. cbn [app orb].
    pose proof (omap_le (selected size) (concat pss)) as Hl. destruct (omap (selected size) (concat pss)) as [|x l].
    + cbn [length map]. destruct (concat pss); [done|]. done.
    + cbn [length map Nat.eqb]. by rewrite andb_false_r.
  - intros ->. inversion Hi; subst. done.
  - clear -Hi. induction Hi as [|ps s pss items H _ IH]; constructor; [by eapply item_comma|done].
Qed.
End Parse.

(** ** Parts *)
Notation inside := within.
Lemma piece_nonneg p s : writes_piece p s -> match p with Span a b => 0 <= a <= b | From a => 0 <= a | Suffix n => 0 <= n end.
Proof.
  assert (H : forall s z, udecimal s z -> 0 <= z) by (intros t z (_ & H & ->); by apply dec_value_ge).
  intros [a b s' t Ha Hb Hab|a s' Ha|n s' Hn]; [split; [by eapply H|done]|by eapply H|by eapply H].
Qed.
Lemma header_nonneg ps s : range_header ps s -> Forall (fun p => match p with Span a b => 0 <= a <= b | From a => 0 <= a | Suffix n => 0 <= n end) ps.
Proof.
  intros (pss & items & Hi & -> & _). induction Hi as [|ps s' pss items H _ IH]; [constructor|]. cbn [concat]. apply Forall_app. split; [|done].
  destruct H; [constructor|]. constructor; [by eapply piece_nonneg|constructor].
Qed.
Lemma selected_inside size ps : 0 <= size -> Forall (fun p => match p with Span a b => 0 <= a <= b | From a => 0 <= a | Suffix n => 0 <= n end) ps ->
  Forall (inside size) (omap (selected size) ps).
Proof.
  intros H0 H. induction H as [|p ps Hp _ IH]; [constructor|].
  change (omap (selected size) (p :: ps)) with (match selected size p with Some y => y :: omap (selected size) ps | None => omap (selected size) ps end).
  destruct (selected size p) as [[a b]|] eqn:E; [|done]. constructor; [|done]. unfold within. cbn [fst snd].
  destruct p as [a' b'|a'|n]; cbn [selected] in E; case_decide; try done; injection E as <- <-; lia.
Qed.
Lemma sum_total l : sumRangesSize (map to_range l) = total l.
Proof.
  unfold sumRangesSize. enough (forall n, fold_left (fun n r => n + rg_length r) (map to_range l) n = n + total l) as -> by lia.
  induction l as [|x l IH]; intros n; [cbn; lia|]. cbn [map fold_left total fold_right]. rewrite IH. unfold total, to_range. cbn [rg_length]. lia.
Qed.
Lemma read_inside {F} (content : F -> gostr) f a b : inside (Z.of_nat (length (content f))) (a, b) ->
  bytes_at (content f) a b (read_at content f a (b - a + 1)).
Proof.
  intros (H1 & H2 & H3 & H4). cbn [fst snd] in *. unfold read_at. set (s := content f) in *.
  exists (take (Z.to_nat a) s), (drop (Z.to_nat (b - a + 1)) (drop (Z.to_nat a) s)). split_and!.
  - by rewrite take_drop, take_drop.
  - rewrite take_length. lia.
  - rewrite take_length, drop_length. lia.
Qed.
Lemma range_text a b size : inside size (a, b) -> content_range a b size (contentRange (to_range (a, b)) size).
Proof.
  intros (H1 & H2 & H3 & H4). cbn [fst snd] in *. unfold contentRange, to_range. cbn [rg_start rg_length fst snd].
  exists (itoa a), (itoa (a + (b - a + 1) - 1)), (itoa size). split_and!; [apply itoa_udecimal; lia| |apply itoa_udecimal; lia|done].
  replace (a + (b - a + 1) - 1) with b by lia. apply itoa_udecimal. lia.
Qed.
Section Parts.
Context {F : Type}.
Variable content : F -> gostr.
Variable bnd : gostr.
Variable f : F.
Variable t : gostr.
Notation size := (Z.of_nat (length (content f))).
Lemma read_length a b : inside size (a, b) -> Z.of_nat (length (read_at content f a (b - a + 1))) = b - a + 1.
Proof. intros H. apply read_inside in H as (u & v & _ & _ & H). done. Qed.
Lemma parts_rest l : Forall (inside size) l ->
  exists B, byteranges (content f) t bnd l B /\ parts content bnd f false t (map to_range l) size ++ closing bnd = newline ++ B.
Proof.
  induction 1 as [|[a b] l Hx _ (B & HB & E)].
  - exists (L "--" ++ bnd ++ L "--" ++ newline). split; [constructor|done].
  - eexists. split; [apply (br_part (content f) t bnd a b l (contentRange (to_range (a, b)) size) (read_at content f a (b - a + 1)) B); [by apply range_text|by apply read_inside|done]|].
    cbn [map parts]. unfold part_header. rewrite <- !app_assoc, E. done.
Qed.
Lemma parts_all x l : Forall (inside size) (x :: l) ->
  byteranges (content f) t bnd (x :: l) (parts content bnd f true t (map to_range (x :: l)) size ++ closing bnd).
Proof.
  intros H. apply Forall_cons_1 in H as [Hx Hl]. destruct x as [a b]. destruct (parts_rest l Hl) as (B & HB & E).
  cbn [map parts]. unfold part_header. rewrite <- !app_assoc, E. apply (br_part _ _ _ a b l); [by apply range_text|by apply read_inside|done].
Qed.
Lemma parts_length l : Forall (inside size) l -> forall b, parts_size bnd b t (map to_range l) size = Z.of_nat (length (parts content bnd f b t (map to_range l) size)).
Proof.
  induction 1 as [|[a b] l Hx _ IH]; intros c; [done|]. cbn [map parts parts_size]. rewrite !app_length, IH.
  change (rg_length (to_range (a, b))) with (b - a + 1). change (rg_start (to_range (a, b))) with a.
  pose proof (read_length a b Hx). lia.
Qed.
Lemma mime_length l : Forall (inside size) l -> rangesMIMESize bnd (map to_range l) t size = Z.of_nat (length (parts content bnd f true t (map to_range l) size ++ closing bnd)).
Proof. intros H. unfold rangesMIMESize. rewrite parts_length by done. rewrite app_length. lia. Qed.
End Parts.

(** ** Headers *)
Lemma values_put k o hs h k' : h_values (put_headers ((k, o) :: hs) h) k' =
  h_values (put_headers hs (match o with Some v => h_set h k v | None => h_del h k end)) k'.
Proof. by destruct o. Qed.
Lemma values_set h k v k' : h_values (h_set h k v) k' = if seqb (canon k) (canon k') then [v] else h_values h k'.
Proof. exact (@h_values_hop unit h (OHeaderSet k v) k'). Qed.
Lemma values_del h k k' : h_values (h_del h k) k' = if seqb (canon k) (canon k') then [] else h_values h k'.
Proof. exact (@h_values_hop unit h (OHeaderDel k) k'). Qed.
Ltac canons := repeat match goal with |- context [seqb (canon (L ?a)) (canon (L ?b))] =>
  let v := eval vm_compute in (seqb (canon (L a)) (canon (L b))) in change (seqb (canon (L a)) (canon (L b))) with v end.
Ltac vals := unfold has; cbn [app]; repeat (rewrite values_put; cbn iota); cbn [put_headers fold_left];
  repeat (rewrite values_set; canons; cbn iota).

(** ** The reply *)
Section Reply.
Context {F : Type}.
Variable strict : bool.
Variable content : F -> gostr.
Variable ctype : F -> gostr.
Variable bnd : gostr.
Notation send := (net_send strict content ctype bnd).
Notation size f := (Z.of_nat (length (content f))).

(** the type of the file, given the Content-Type so far *)
Definition typed (t : gostr) (f : F) : gostr := match t with [] => ctype f | _ => t end.
Lemma send_parts r t f rg (h0 : header) l hs n out : t = [] \/ h_values h0 (L "Content-Type") = [t] ->
  parseRange strict rg (size f) = inr (map to_range l) -> Forall (inside (size f)) l ->
  send r t [] f rg = (hs, n, out) ->
  exists body, concat out = (if decide (rq_method r = L "HEAD") then [] else body) /\
    match l with
    | [] => whole_reply (content f) (typed t f) n (put_headers hs h0) body
    | _ => parts_reply (content f) (typed t f) bnd l n (put_headers hs h0) body
    end.
Proof.
  intros Ht Hp Hl. unfold net_send. rewrite Hp, sum_total. clear Hp.
  set (th := match t with [] => [(L "Content-Type", Some (ctype f))] | _ => [] end).
  match goal with |- (let '(_, _) := ?M in _) = _ -> _ => assert (M = (th, typed t f)) as -> by (by destruct t) end. cbv iota beta zeta.
  assert (forall rh, h_values (put_headers th h0) (L "Content-Type") = [typed t f] /\ put_headers (th ++ rh) h0 = put_headers rh (put_headers th h0)) as Hth.
  { intros rh. split; [|apply fold_left_app]. unfold th, typed. destruct t as [|a t]; [vals; done|]. by destruct Ht. }
  assert (forall d : gostr, concat (if seqb (rq_method r) (L "HEAD") then [] else [take (Z.to_nat (Z.of_nat (length d))) d]) =
    if decide (rq_method r = L "HEAD") then [] else d) as Hd.
  { intros d. rewrite Nat2Z.id, firstn_all. destruct (seqb (rq_method r) (L "HEAD")) eqn:E.
    - apply seqb_true in E. by rewrite decide_True.
    - apply seqb_false in E. rewrite decide_False by done. cbn [concat]. by rewrite app_nil_r. }
  assert (size f < total l \/ total l <= size f) as [Hb|Hb] by lia.
  - rewrite (proj2 (Z.ltb_lt _ _) Hb). intros [= <- <- <-]. exists (content f). split; [apply Hd|].
    destruct l as [|x l]; [cbn in Hb; lia|]. rewrite (proj2 (Hth _)). eapply (pr_whole _ _ _ _ (itoa (size f))); [exact Hb| | |apply itoa_udecimal; lia|].
    + vals. apply (Hth []).
    + vals. done.
    + vals. done.
  - rewrite (proj2 (Z.ltb_ge _ _) Hb). destruct l as [|[a b] [|y l]].
    + cbn [map]. intros [= <- <- <-]. exists (content f). split; [apply Hd|]. rewrite (proj2 (Hth _)). split; [done|]. split; [done|]. split_and!.
      * vals. apply (Hth []).
      * vals. done.
      * exists (itoa (size f)). split; [apply itoa_udecimal; lia|]. by vals.
    + cbn [map]. pose proof (Forall_inv Hl) as Hi. intros [= <- <- <-]. exists (read_at content f a (b - a + 1)).
      change (rg_start (to_range (a, b))) with a. change (rg_length (to_range (a, b))) with (b - a + 1).
      pose proof (read_length content f a b Hi) as Hlen. split; [rewrite <- Hlen at 1; apply Hd|]. rewrite (proj2 (Hth _)).
      eapply (pr_one _ _ _ _ a b (contentRange (to_range (a, b)) (size f)) _ (itoa (b - a + 1))); [done|done| | |by apply range_text| |by apply read_inside| |].
      * vals. apply (Hth []).
      * vals. done.
      * vals. done.
      * rewrite Hlen. apply itoa_udecimal. destruct Hi as (? & ? & ?). cbn [fst snd] in *. lia.
      * vals. done.
    + cbn [map]. change (to_range (a, b) :: to_range y :: map to_range l) with (map to_range ((a, b) :: y :: l)). intros [= <- <- <-].
      exists (parts content bnd f true (typed t f) (map to_range ((a, b) :: y :: l)) (size f) ++ closing bnd).
      pose proof (mime_length content bnd f (typed t f) _ Hl) as Hm. cbn [map] in Hm |- *. rewrite Hm. split; [apply Hd|]. rewrite (proj2 (Hth _)).
      eapply (pr_many _ _ _ _ _ (itoa (Z.of_nat (length (parts content bnd f true (typed t f) (map to_range ((a, b) :: y :: l)) (size f) ++ closing bnd))))).
      * cbn. lia.
      * done.
      * vals. done.
      * vals. done.
      * exact (parts_all content bnd f (typed t f) _ _ Hl).
      * apply itoa_udecimal. lia.
      * vals. done.
Qed.

Lemma range_reply r t f rg (h0 : header) ps hs n out : t = [] \/ h_values h0 (L "Content-Type") = [t] ->
  range_header ps rg -> Forall sized ps -> Forall (counts (size f)) ps ->
  send r t [] f rg = (hs, n, out) ->
  ranged (content f) (typed t f) bnd (bool_decide (rq_method r = L "HEAD")) ps n (put_headers hs h0) (concat out).
Proof.
  intros Ht Hr Hs Hc E. pose proof (parse_header strict (size f) ps rg Hr ltac:(lia) Hs Hc) as Hp.
  pose proof (selected_inside (size f) ps ltac:(lia) (header_nonneg ps rg Hr)) as Hi.
  unfold ranged. destruct (omap (selected (size f)) ps) as [|x l] eqn:El.
  - unfold net_send in E. rewrite Hp in E. assert (forall th (t' : gostr), (let '(th, t) := (th, t') in
      let '(hs, n, out) := http_Error (L "invalid range: failed to overlap") 416 in
        (th ++ [(L "Content-Range", Some (L "bytes */" ++ itoa (size f)))] ++ hs, n, out)) = (hs, n, out) -> no_part_reply (content f) n (put_headers hs h0)) as Hg.
    { intros th t' [= <- <- <-]. split; [done|]. exists (itoa (size f)). split; [apply itoa_udecimal; lia|].
      unfold put_headers. rewrite fold_left_app. fold (put_headers th h0). vals. done. }
    destruct t; (eapply (Hg _ []); exact E).
  - destruct (send_parts r t f rg h0 (x :: l) hs n out Ht Hp Hi E) as (body & H1 & H2). exists body. split; [done|]. rewrite H1. case_decide; [by rewrite bool_decide_true|by rewrite bool_decide_false].
Qed.
Lemma plain_reply r t f (h0 : header) hs n out : t = [] \/ h_values h0 (L "Content-Type") = [t] ->
  send r t [] f [] = (hs, n, out) ->
  exists body, whole_reply (content f) (typed t f) n (put_headers hs h0) body /\ concat out = if bool_decide (rq_method r = L "HEAD") then [] else body.
Proof.
  intros Ht E. destruct (send_parts r t f [] h0 [] hs n out Ht eq_refl ltac:(constructor) E) as (body & H1 & H2). exists body.
  split; [done|]. rewrite H1. case_decide; [by rewrite bool_decide_true|by rewrite bool_decide_false].
Qed.
Lemma net_delivered r t f rg (h0 : header) hs n out : t = [] \/ h_values h0 (L "Content-Type") = [t] ->
  send r t [] f rg = (hs, n, out) ->
  delivered (content f) (typed t f) bnd (bool_decide (rq_method r = L "HEAD")) rg n (put_headers hs h0) (concat out).
Proof.
  intros Ht E. split; [intros ->; by eapply plain_reply|]. intros ps Hr Hs Hc. by eapply range_reply.
Qed.
Lemma send_keys r t enc f rg hs n out : send r t enc f rg = (hs, n, out) -> (n = 200 \/ n = 206 \/ n = 416) /\
  forall kv, kv ∈ hs -> canon kv.1 ∈ [L "Content-Type"; L "Content-Range"; L "X-Content-Type-Options"; L "Accept-Ranges"; L "Content-Length"].
Proof.
  unfold net_send. set (th := match t with [] => [(L "Content-Type", Some (ctype f))] | _ => [] end).
  match goal with |- (let '(_, _) := ?M in _) = _ -> _ => assert (M = (th, typed t f)) as -> by (by destruct t) end. cbv iota beta zeta.
  assert (Forall (fun kv : gostr * option gostr => canon kv.1 ∈ [L "Content-Type"; L "Content-Range"; L "X-Content-Type-Options"; L "Accept-Ranges"; L "Content-Length"]) th) as Hth.
  { unfold th. destruct t; repeat constructor. }
  assert (Forall (fun kv : gostr * option gostr => canon kv.1 ∈ [L "Content-Type"; L "Content-Range"; L "X-Content-Type-Options"; L "Accept-Ranges"; L "Content-Length"])
    [(L "Content-Type", None); (L "Content-Range", None); (L "X-Content-Type-Options", None); (L "Accept-Ranges", None); (L "Content-Length", None)]) as Hk.
  { repeat constructor; apply (bool_decide_eq_true _); vm_compute; reflexivity. }
  rewrite !Forall_cons in Hk. cbn [fst] in Hk. destruct Hk as (K1 & K2 & K3 & K4 & K5 & _).
  rewrite <- Forall_forall. destruct (parseRange _ _ _) as [e|l].
  - intros [= <- <- <-]. split; [lia|]. apply Forall_app. split; [done|]. destruct e; repeat constructor; done.
  - destruct (_ <? sumRangesSize l); [|destruct l as [|x [|y l]]]; intros [= <- <- <-]; (split; [lia|]); apply Forall_app; (split; [done|]); destruct (seqb enc []); repeat constructor; done.
Qed.
Lemma send_valid r t enc f rg : 100 <= (send r t enc f rg).1.2 <= 999.
Proof.
  unfold net_send. destruct (match t with [] => _ | _ => _ end) as [th t']. destruct (parseRange _ _ _) as [e|l]; [cbn; lia|].
  destruct (size f <? sumRangesSize l); [cbn; lia|]. destruct l as [|x [|y l]]; cbn; lia.
Qed.
End Reply.

(** ** Any Range header *)
Section Any.
Context {F : Type}.
Variable content : F -> gostr.
Variable ctype : F -> gostr.
Variable bnd : gostr.
Lemma parse_one_inside size ra x : 0 < size -> parse_one true size ra = Some (Some x) ->
  exists y, inside size y /\ x = to_range y.
Proof.
  intros H0. unfold parse_one, to_range. destruct (index_byte "-" ra) as [i|]; [|done].
  destruct (TrimString (take i ra)) as [|a s].
  - set (c := match TrimString (drop (S i) ra) with [] => true | _ => _ end). destruct c; [done|]. cbn [andb].
    destruct (parse_int 64 _) as [n [| |]]; try done. destruct (n <? 0) eqn:En; [done|]. apply Z.ltb_ge in En. intros [= <-].
    exists (size - (if size <? n then size else n), size - 1). unfold within. cbn [fst snd].
    destruct (size <? n) eqn:E; (apply Z.ltb_lt in E || apply Z.ltb_ge in E); (split; [lia|]); f_equal; lia.
  - destruct (parse_int 64 (a :: s)) as [n [| |]]; try done. destruct (n <? 0) eqn:En; [done|]. apply Z.ltb_ge in En.
    destruct (size <=? n) eqn:E; [done|]. apply Z.leb_gt in E. destruct (TrimString (drop (S i) ra)) as [|b t].
    + intros [= <-]. exists (n, size - 1). unfold within. cbn [fst snd]. split; [lia|]. f_equal; lia.
    + destruct (parse_int 64 (b :: t)) as [j [| |]]; try done. destruct (j <? n) eqn:Ej; [done|]. apply Z.ltb_ge in Ej. intros [= <-].
      exists (n, if size <=? j then size - 1 else j). unfold within. cbn [fst snd]. destruct (size <=? j) eqn:E2; (apply Z.leb_le in E2 || apply Z.leb_gt in E2); (split; [lia|]); f_equal; lia.
Qed.
Lemma parse_all_inside size l : 0 < size -> forall acc no x, (exists y, Forall (inside size) y /\ acc = map to_range y) ->
  parse_all true size l acc no = inr x -> exists y, Forall (inside size) y /\ x = map to_range y.
Proof.
  intros H0. induction l as [|ra l IH]; intros acc no x Hy; cbn [parse_all].
  - destruct (no && _); [done|]. by intros [= <-].
  - destruct (TrimString ra) as [|a s]; [by apply IH|]. destruct (parse_one true size (a :: s)) as [[z|]|] eqn:E; [| |done].
    + apply IH. destruct Hy as (y & Hy & ->). apply parse_one_inside in E as (w & Hw & ->); [|done].
      exists (y ++ [w]). split; [apply Forall_app; split; [done|by constructor]|]. by rewrite map_app.
    + by apply IH.
Qed.
Lemma any_reply r t f rg (h0 : header) hs n out : t = [] \/ h_values h0 (L "Content-Type") = [t] -> content f <> [] ->
  net_send true content ctype bnd r t [] f rg = (hs, n, out) ->
  contained (content f) (typed ctype t f) bnd (bool_decide (rq_method r = L "HEAD")) n (put_headers hs h0) (concat out).
Proof.
  intros Ht Hne E. destruct (parseRange true rg (Z.of_nat (length (content f)))) as [e|l] eqn:Ep.
  - left. unfold net_send in E. rewrite Ep in E. destruct t; by injection E.
  - right. assert (exists y, Forall (inside (Z.of_nat (length (content f)))) y /\ l = map to_range y) as (y & Hy & ->).
    { assert (0 < Z.of_nat (length (content f))) as Hp by (destruct (content f); [done|cbn; lia]).
      unfold parseRange in Ep. destruct rg as [|a rg]; [injection Ep as <-; exists []; by split|]. destruct (has_prefix _ _); [|done].
      eapply parse_all_inside; [exact Hp| |exact Ep]. by exists []. }
    destruct (send_parts true content ctype bnd r t f rg h0 y hs n out Ht Ep Hy E) as (body & H1 & H2). exists body. split; [rewrite H1; case_decide; [by rewrite bool_decide_true|by rewrite bool_decide_false]|].
    destruct y as [|z y]; [by left|]. right. by exists (z :: y).
Qed.
End Any.

(** ** What the specification says *)
Lemma udecimal_fun s z z' : udecimal s z -> udecimal s z' -> z = z'.
Proof. intros (_ & _ & ->) (_ & _ & ->). done. Qed.
Lemma bytes_at_fun s a b d d' : bytes_at s a b d -> bytes_at s a b d' -> d = d'.
Proof.
  intros (u & v & E & H1 & H2) (u' & v' & E' & H1' & H2'). rewrite E in E'. apply app_inj_1 in E' as [_ E']; [|lia].
  by apply app_inj_1 in E' as [-> _]; [|lia].
Qed.
Lemma byteranges_bytes s t bnd l body : byteranges s t bnd l body ->
  Forall (fun x => exists d u v, bytes_at s x.1 x.2 d /\ body = u ++ d ++ v) l.
Proof.
  induction 1 as [|a b l cr d rest H1 H2 _ IH]; constructor.
  - cbn [fst snd]. eexists d, (L "--" ++ bnd ++ newline ++ L "Content-Range: " ++ cr ++ newline ++ L "Content-Type: " ++ t ++ newline ++ newline), (newline ++ rest).
    split; [done|]. by rewrite <- !app_assoc.
  - eapply Forall_impl; [exact IH|]. intros x (d' & u & v & H & ->).
    eexists d', (L "--" ++ bnd ++ newline ++ L "Content-Range: " ++ cr ++ newline ++ L "Content-Type: " ++ t ++ newline ++ newline ++ d ++ newline ++ u), v.
    split; [done|]. by rewrite <- !app_assoc.
Qed.
Lemma ranged_fun s t bnd head ps n hd out n' hd' out' :
  ranged s t bnd head ps n hd out -> ranged s t bnd head ps n' hd' out' ->
  n = n' /\ (n = 200 \/ length (omap (selected (Z.of_nat (length s))) ps) = 1%nat -> out = out').
Proof.
  unfold ranged. destruct (omap _ ps) as [|x l].
  - intros (-> & _) (-> & _). split; [done|]. by intros [?|?].
  - intros (body & H & ->) (body' & H' & ->).
    destruct H as [m hd H1|a b cr d m hd H1 H2 _ _ _ _ H3|body m hd H1 H2];
      destruct H' as [m' hd' H1'|a' b' cr' d' m' hd' H1' H2' _ _ _ _ H3'|body' m' hd' H1' H2']; try lia.
    + done.
    + split; [done|]. intros _. rewrite H1 in H1'. injection H1' as <- <-. by rewrite (bytes_at_fun _ _ _ _ _ H3 H3').
Qed.
