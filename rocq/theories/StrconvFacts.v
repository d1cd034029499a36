(** Facts about number formatting and parsing. *)
From Verif Require Import Base GoStr Strconv UtilSpec.

(** ** Digits *)
Definition dvalue (b : N) (l : list N) : N := fold_left (fun v d => v * b + d)%N l 0%N.

Lemma dvalue_snoc b l d : dvalue b (l ++ [d]) = (dvalue b l * b + d)%N.
Proof. unfold dvalue. by rewrite fold_left_app. Qed.

Lemma digits_fuel_spec b (Hb : (2 <= b)%N) f : forall n, (n < b ^ N.of_nat f)%N ->
  dvalue b (digits_fuel f b n) = n /\ Forall (fun d => d < b)%N (digits_fuel f b n) /\
  (f <> 0 -> digits_fuel f b n <> []).
Proof.
  induction f as [|f IH]; intros n Hn.
  - cbn in Hn. assert (n = 0)%N as -> by lia. cbn. done.
  - cbn [digits_fuel]. destruct (n <? b)%N eqn:E.
    + apply N.ltb_lt in E. split; [unfold dvalue; cbn; lia|]. split; [by repeat constructor|done].
    + apply N.ltb_ge in E.
      assert (n / b < b ^ N.of_nat f)%N as Hlt.
      { rewrite Nat2N.inj_succ, N.pow_succ_r' in Hn. apply N.div_lt_upper_bound; lia. }
      destruct (IH _ Hlt) as (H1 & H2 & _).
      rewrite dvalue_snoc, H1. split; [pose proof (N.div_mod n b); lia|]. split.
      * apply Forall_app. split; [done|]. constructor; [|constructor]. apply N.mod_lt. lia.
      * intros _. by destruct (digits_fuel f b (n / b)).
Qed.
Lemma size_nat_bound n : (n < 2 ^ N.of_nat (N.size_nat n))%N.
Proof.
  destruct n as [|p]; [cbn; lia|]. cbn [N.size_nat].
  induction p as [p IH|p IH|]; cbn [Pos.size_nat]; rewrite ?Nat2N.inj_succ, ?N.pow_succ_r'; lia.
Qed.
Lemma digits_spec b n : (2 <= b)%N ->
  dvalue b (digits b n) = n /\ Forall (fun d => d < b)%N (digits b n) /\ digits b n <> [].
Proof.
  intros Hb. unfold digits.
  assert (n < b ^ N.of_nat (S (N.size_nat n)))%N as H.
  { pose proof (size_nat_bound n). rewrite Nat2N.inj_succ, N.pow_succ_r'.
    assert (2 ^ N.of_nat (N.size_nat n) <= b ^ N.of_nat (N.size_nat n))%N by (apply N.pow_le_mono_l; lia).
    assert (1 * b ^ N.of_nat (N.size_nat n) <= b * b ^ N.of_nat (N.size_nat n))%N by (apply N.mul_le_mono_r; lia). lia. }
  destruct (digits_fuel_spec b Hb _ n H) as (H1 & H2 & H3). auto.
Qed.

(** ** Digit characters *)
Lemma digit_char_val d : (d < 16)%N -> hex_val (digit_char d) = Some d.
Proof.
  intros H. assert (forallb (fun d => bool_decide (hex_val (digit_char d) = Some d)) (map N.of_nat (seq 0 16)) = true) as Hc
    by (vm_compute; reflexivity).
  rewrite forallb_forall in Hc. specialize (Hc d). apply bool_decide_eq_true in Hc; [done|].
  apply in_map_iff. exists (N.to_nat d). split; [lia|]. apply in_seq. lia.
Qed.
Lemma digit_char_inj d d' : (d < 16)%N -> (d' < 16)%N -> digit_char d = digit_char d' -> d = d'.
Proof. intros H1 H2 E. pose proof (digit_char_val d H1) as Ha. rewrite E, digit_char_val in Ha by done. congruence. Qed.
Lemma digit_char_not_minus d : (d < 16)%N -> digit_char d <> "-"%char.
Proof. intros H E. pose proof (digit_char_val d H) as Ha. rewrite E in Ha. discriminate. Qed.

Lemma map_digit_inj l l' : Forall (fun d => d < 16)%N l -> Forall (fun d => d < 16)%N l' ->
  map digit_char l = map digit_char l' -> l = l'.
Proof.
  intros H. revert l'. induction H as [|d l Hd Hl IH]; intros [|d' l'] H' E; try done.
  inversion H'; subst. cbn in E. inversion E. f_equal; [by apply digit_char_inj|]. by apply IH.
Qed.
Lemma format_N_inj b n n' : (2 <= b <= 16)%N -> format_N b n = format_N b n' -> n = n'.
Proof.
  intros Hb E. unfold format_N in E.
  destruct (digits_spec b n) as (H1 & H2 & _); [lia|]. destruct (digits_spec b n') as (H1' & H2' & _); [lia|].
  rewrite <- H1, <- H1'. f_equal. apply map_digit_inj; [| |done]; (eapply Forall_impl; [eassumption|]; cbn; lia).
Qed.
Lemma format_N_nonempty b n : (2 <= b <= 16)%N -> format_N b n <> [].
Proof. intros Hb. unfold format_N. destruct (digits_spec b n) as (_ & _ & H); [lia|]. by destruct (digits b n). Qed.
Lemma format_N_no_minus b n : (2 <= b <= 16)%N -> "-"%char ∉ format_N b n.
Proof.
  intros Hb Hin. unfold format_N in Hin. apply elem_of_list_fmap in Hin as (d & Hd & Hin).
  destruct (digits_spec b n) as (_ & H & _); [lia|]. rewrite Forall_forall in H. specialize (H d Hin).
  apply (digit_char_not_minus d); [|done]. cbn in H. lia.
Qed.

Lemma app_sep_inj {A} (c : A) (x y u v : list A) : c ∉ x -> c ∉ u -> x ++ c :: y = u ++ c :: v -> x = u /\ y = v.
Proof.
  revert u. induction x as [|a x IH]; intros [|b u] Hx Hu E; cbn in E.
  - inversion E; done.
  - inversion E; subst. exfalso. apply Hu. left.
  - inversion E; subst. exfalso. apply Hx. left.
  - inversion E; subst. destruct (IH u) as [-> ->]; [set_solver|set_solver|done|done].
Qed.

Definition neg (z : Z) : bool := match z with Zneg _ => true | _ => false end.
Lemma format_Z_cases b z : format_Z b z = (if neg z then ["-"%char] else []) ++ format_N b (Z.abs_N z).
Proof. by destruct z. Qed.

(** what follows a formatted number after a minus sign can be told apart *)
Lemma format_Z_sep_inj b z z' r r' : (2 <= b <= 16)%N ->
  format_Z b z ++ "-"%char :: r = format_Z b z' ++ "-"%char :: r' -> z = z' /\ r = r'.
Proof.
  intros Hb. rewrite !format_Z_cases, <- !app_assoc.
  pose proof (format_N_no_minus b (Z.abs_N z) Hb). pose proof (format_N_no_minus b (Z.abs_N z') Hb).
  pose proof (format_N_nonempty b (Z.abs_N z) Hb). pose proof (format_N_nonempty b (Z.abs_N z') Hb).
  destruct (neg z) eqn:E, (neg z') eqn:E'; cbn [app].
  - intros He. injection He as He. apply app_sep_inj in He as [He ->]; [|done|done].
    apply format_N_inj in He; [|done]. destruct z, z'; try discriminate. split; [lia|done].
  - destruct (format_N b (Z.abs_N z')) as [|d l] eqn:Ed; [done|]. cbn. intros He. injection He as Hd _. subst d. set_solver.
  - destruct (format_N b (Z.abs_N z)) as [|d l] eqn:Ed; [done|]. cbn. intros He. injection He as Hd _. subst d. set_solver.
  - intros He. apply app_sep_inj in He as [He ->]; [|done|done].
    apply format_N_inj in He; [|done]. destruct z, z'; try discriminate; split; try done; lia.
Qed.
Lemma format_Z_inj b z z' : (2 <= b <= 16)%N -> format_Z b z = format_Z b z' -> z = z'.
Proof.
  intros Hb E. apply (format_Z_sep_inj b z z' [] [] Hb). by rewrite E.
Qed.

(** %x of a string *)
Lemma hex_byte_inj a a' : hex_byte a = hex_byte a' -> a = a'.
Proof.
  unfold hex_byte. intros E. injection E as E1 E2.
  assert (forall c : ascii, (N_of_ascii c < 256)%N) as Hb by (intros c; apply N_ascii_bounded).
  pose proof (Hb a). pose proof (Hb a').
  apply digit_char_inj in E1; [|apply N.div_lt_upper_bound; lia|apply N.div_lt_upper_bound; lia].
  apply digit_char_inj in E2; [|apply N.mod_lt; lia|apply N.mod_lt; lia].
  rewrite <- (ascii_N_embedding a), <- (ascii_N_embedding a'). f_equal.
  rewrite (N.div_mod (N_of_ascii a) 16), (N.div_mod (N_of_ascii a') 16) by lia. congruence.
Qed.
Lemma hex_string_inj s s' : hex_string s = hex_string s' -> s = s'.
Proof.
  revert s'. induction s as [|a s IH]; intros [|a' s'] E; try done.
  unfold hex_string in E. cbn [flat_map] in E.
  assert (hex_byte a = hex_byte a' /\ hex_string s = hex_string s') as [H1 H2].
  { apply app_inj_1; [done|exact E]. }
  apply hex_byte_inj in H1 as ->. f_equal. by apply IH.
Qed.

(** ** Parsing *)
Lemma digit_val_digit c : is_digit c <-> exists d, digit_val c = Some d /\ (d < 10)%N.
Proof.
  unfold is_digit, digit_val. split.
  - intros H. exists (N_of_ascii c - 48)%N.
    replace ((48 <=? N_of_ascii c)%N && (N_of_ascii c <=? 57)%N) with true; [split; [done|lia]|].
    symmetry. apply andb_true_intro. split; apply N.leb_le; lia.
  - intros (d & Hd & Hlt). destruct ((48 <=? N_of_ascii c)%N && (N_of_ascii c <=? 57)%N) eqn:E.
    + apply andb_prop in E as [E1 E2]. apply N.leb_le in E1, E2. lia.
    + destruct ((97 <=? N_of_ascii (lower_byte c))%N && (N_of_ascii (lower_byte c) <=? 122)%N); [|done].
      injection Hd as <-. lia.
Qed.
Lemma digit_val_of c : is_digit c -> digit_val c = Some (Z.to_N (digit_of c)) /\ (0 <= digit_of c < 10)%Z.
Proof.
  unfold is_digit, digit_val, digit_of. intros H.
  replace ((48 <=? N_of_ascii c)%N && (N_of_ascii c <=? 57)%N) with true.
  - split; [f_equal; lia|lia].
  - symmetry. apply andb_true_intro. split; apply N.leb_le; lia.
Qed.
Lemma not_digit_val c : ~ is_digit c ->
  match digit_val c with None => True | Some d => (10 <= d)%N end.
Proof.
  intros H. destruct (digit_val c) as [d|] eqn:E; [|done].
  destruct (N.le_gt_cases 10 d); [done|]. exfalso. apply H. apply digit_val_digit. eauto.
Qed.

Definition dec_from (v : Z) (s : gostr) : Z := fold_left (fun v c => v * 10 + digit_of c)%Z s v.
Lemma dec_from_ge v s : Forall is_digit s -> (0 <= v -> v <= dec_from v s)%Z.
Proof.
  intros H. revert v. induction H as [|c s Hc Hs IH]; intros v Hv; [cbn; lia|].
  cbn [dec_from fold_left]. fold (dec_from (v * 10 + digit_of c) s).
  destruct (digit_val_of c Hc) as [_ Hd]. specialize (IH (v * 10 + digit_of c)%Z). lia.
Qed.
Lemma dec_value_ge s : Forall is_digit s -> (0 <= dec_value s)%Z.
Proof. intros H. apply (dec_from_ge 0 s H). lia. Qed.

(** everything up to the first byte that is no digit *)
Definition stops (r : gostr) : Prop := match r with [] => True | c :: _ => ~ is_digit c end.
Lemma digits_span s : exists ds r, s = ds ++ r /\ Forall is_digit ds /\ stops r.
Proof.
  induction s as [|c s (ds & r & -> & Hd & Hr)].
  - exists [], []. done.
  - destruct (decide (48 <= N_of_ascii c <= 57)%N) as [H|H].
    + exists (c :: ds), r. split; [done|]. split; [by constructor|done].
    + exists [], (c :: ds ++ r). done.
Qed.

Lemma parse_uint_loop_spec m acc ds r : (m <= 2 ^ 64 - 1)%N -> (acc <= m)%N -> Forall is_digit ds -> stops r ->
  parse_uint_loop m acc (ds ++ r) =
    (if (Z.of_N m <? dec_from (Z.of_N acc) ds)%Z then (m, ErrRange)
     else match r with [] => (Z.to_N (dec_from (Z.of_N acc) ds), ErrNone) | _ => (0%N, ErrSyntax) end).
Proof.
  intros Hm Hacc Hd Hr. revert acc Hacc. induction Hd as [|c ds Hc Hd IH]; intros acc Hacc.
  - cbn [app dec_from fold_left]. assert ((Z.of_N m <? Z.of_N acc)%Z = false) as -> by (apply Z.ltb_ge; lia).
    destruct r as [|c r]; cbn [parse_uint_loop]; [f_equal; lia|].
    cbn in Hr. pose proof (not_digit_val c Hr) as Hn. destruct (digit_val c) as [d|]; [|done].
    assert ((10 <=? d)%N = true) as -> by (apply N.leb_le; done). done.
  - destruct (digit_val_of c Hc) as [Hv Hlt].
    cbn [app parse_uint_loop]. rewrite Hv.
    assert ((10 <=? Z.to_N (digit_of c))%N = false) as -> by (apply N.leb_gt; lia).
    cbn [dec_from fold_left]. fold (dec_from (Z.of_N acc * 10 + digit_of c) ds).
    set (d := Z.to_N (digit_of c)) in *.
    replace (Z.of_N acc * 10 + digit_of c)%Z with (Z.of_N (acc * 10 + d)) by lia.
    assert (Z.of_N (acc * 10 + d) <= dec_from (Z.of_N (acc * 10 + d)) ds)%Z as Hge by (apply dec_from_ge; [done|lia]).
    assert (2 ^ 64 = 18446744073709551616)%N as H64 by reflexivity.
    destruct (cutoff10 <=? acc)%N eqn:Ec.
    + apply N.leb_le in Ec. unfold cutoff10 in Ec.
      assert ((Z.of_N m <? dec_from (Z.of_N (acc * 10 + d)) ds)%Z = true) as -> by (apply Z.ltb_lt; lia). done.
    + apply N.leb_gt in Ec. unfold cutoff10 in Ec.
      destruct (N.lt_ge_cases (acc * 10 + d) (2 ^ 64)) as [Hs|Hs].
      * rewrite (N.mod_small _ _ Hs).
        assert ((acc * 10 + d <? acc * 10)%N = false) as -> by (apply N.ltb_ge; lia). cbn [orb].
        destruct (m <? acc * 10 + d)%N eqn:Em.
        -- apply N.ltb_lt in Em.
           assert ((Z.of_N m <? dec_from (Z.of_N (acc * 10 + d)) ds)%Z = true) as -> by (apply Z.ltb_lt; lia). done.
        -- apply N.ltb_ge in Em. by apply IH.
      * assert ((acc * 10 + d) mod 2 ^ 64 = acc * 10 + d - 2 ^ 64)%N as ->.
        { symmetry. apply (N.mod_unique _ _ 1); lia. }
        assert ((acc * 10 + d - 2 ^ 64 <? acc * 10)%N = true) as -> by (apply N.ltb_lt; lia). cbn [orb].
        assert ((Z.of_N m <? dec_from (Z.of_N (acc * 10 + d)) ds)%Z = true) as -> by (apply Z.ltb_lt; lia). done.
Qed.

(** strconv.ParseUint, completely *)
Lemma parse_uint_spec bits ds r : (1 <= bits <= 64)%N -> ds ++ r <> [] -> Forall is_digit ds -> stops r ->
  parse_uint bits (ds ++ r) =
    (if (2 ^ Z.of_N bits - 1 <? dec_value ds)%Z then ((2 ^ bits - 1)%N, ErrRange)
     else match r with [] => (Z.to_N (dec_value ds), ErrNone) | _ => (0%N, ErrSyntax) end).
Proof.
  intros Hb Hne Hd Hr. unfold parse_uint.
  assert (1 <= 2 ^ bits)%N as H1. { pose proof (N.pow_nonzero 2 bits). lia. }
  assert (2 ^ bits <= 2 ^ 64)%N as H2 by (apply N.pow_le_mono_r; lia).
  destruct (ds ++ r) as [|c l] eqn:E; [done|]. rewrite <- E.
  rewrite (parse_uint_loop_spec (2 ^ bits - 1)%N 0%N ds r) by (done || lia).
  change (dec_from (Z.of_N 0) ds) with (dec_value ds).
  replace (Z.of_N (2 ^ bits - 1)) with (2 ^ Z.of_N bits - 1)%Z; [done|].
  rewrite N2Z.inj_sub by lia. rewrite N2Z.inj_pow. done.
Qed.

Lemma is_digit_not_sign c : is_digit c -> c <> "+"%char /\ c <> "-"%char.
Proof. unfold is_digit. intros H. split; intros ->; vm_compute in H; destruct H as [H1 H2]; first [by apply H1|by apply H2]. Qed.

(** the sign and the rest of a string *)
Definition sign_body (s : gostr) : bool * gostr :=
  match s with
  | c :: s' => if Ascii.eqb c "-" then (true, s') else if Ascii.eqb c "+" then (false, s') else (false, s)
  | [] => (false, [])
  end.
Definition signed (n : bool) (v : Z) : Z := if n then (- v)%Z else v.

Lemma parse_int_spec bits s ds r : (2 <= bits <= 64)%N ->
  snd (sign_body s) = ds ++ r -> Forall is_digit ds -> stops r ->
  parse_int bits s =
    (let v := dec_value ds in
     let lo := (- 2 ^ (Z.of_N bits - 1))%Z in let hi := (2 ^ (Z.of_N bits - 1) - 1)%Z in
     let z := signed (fst (sign_body s)) v in
     if bool_decide (ds ++ r = []) then (0%Z, ErrSyntax)
     else if (2 ^ Z.of_N bits - 1 <? v)%Z then ((if fst (sign_body s) then lo else hi), ErrRange)
     else match r with
          | [] => if (z <? lo)%Z then (lo, ErrRange) else if (hi <? z)%Z then (hi, ErrRange) else (z, ErrNone)
          | _ => (0%Z, ErrSyntax)
          end).
Proof.
  intros Hb Hs Hd Hr. cbv zeta.
  assert (parse_int bits s =
    match parse_uint bits (ds ++ r) with
    | (_, ErrSyntax) => (0%Z, ErrSyntax)
    | (un, _) =>
        let cutoff := (2 ^ (bits - 1))%N in
        let n := fst (sign_body s) in
        if negb n && (cutoff <=? un)%N then (Z.of_N cutoff - 1, ErrRange)%Z
        else if n && (cutoff <? un)%N then (- Z.of_N cutoff, ErrRange)%Z
        else ((if n then - Z.of_N un else Z.of_N un)%Z, ErrNone)
    end) as ->.
  { rewrite <- Hs. unfold parse_int, sign_body. destruct s as [|c s]; [done|].
    destruct (Ascii.eqb_spec c "-") as [->|Hn]; [reflexivity|].
    destruct (Ascii.eqb_spec c "+") as [->|Hp]; reflexivity. }
  destruct (bool_decide_reflect (ds ++ r = [])) as [->|Hne]; [done|].
  rewrite parse_uint_spec by (done || lia).
  set (v := dec_value ds). assert (0 <= v)%Z as Hv by (by apply dec_value_ge).
  set (n := fst (sign_body s)). clearbody n.
  assert (Z.of_N (2 ^ (bits - 1)) = 2 ^ (Z.of_N bits - 1))%Z as Hc.
  { rewrite N2Z.inj_pow, N2Z.inj_sub by lia. done. }
  assert (2 * 2 ^ (Z.of_N bits - 1) = 2 ^ Z.of_N bits)%Z as Hd2.
  { rewrite <- Z.pow_succ_r by lia. f_equal. lia. }
  assert (2 * 2 ^ (bits - 1) = 2 ^ bits)%N as Hd3.
  { rewrite <- N.pow_succ_r by lia. f_equal. lia. }
  assert (2 <= 2 ^ (bits - 1))%N as Hpos.
  { change 2%N with (2 ^ 1)%N at 1. apply N.pow_le_mono_r; lia. }
  set (p := (2 ^ (bits - 1))%N) in *. rewrite <- Hd2, <- Hd3, <- !Hc in *. clear Hc Hd2 Hd3.
  destruct (2 * Z.of_N p - 1 <? v)%Z eqn:E.
  - cbv zeta. destruct n; cbn [negb andb].
    + assert ((p <? 2 * p - 1)%N = true) as -> by (apply N.ltb_lt; lia). done.
    + assert ((p <=? 2 * p - 1)%N = true) as -> by (apply N.leb_le; lia). done.
  - apply Z.ltb_ge in E. destruct r as [|c r]; [|done]. cbv zeta. unfold signed.
    destruct n; cbn [negb andb].
    + destruct (p <? Z.to_N v)%N eqn:E2.
      * apply N.ltb_lt in E2. assert ((- v <? - Z.of_N p)%Z = true) as -> by (apply Z.ltb_lt; lia). done.
      * apply N.ltb_ge in E2. assert ((- v <? - Z.of_N p)%Z = false) as -> by (apply Z.ltb_ge; lia).
        assert ((Z.of_N p - 1 <? - v)%Z = false) as -> by (apply Z.ltb_ge; lia). f_equal. lia.
    + assert ((v <? - Z.of_N p)%Z = false) as -> by (apply Z.ltb_ge; lia).
      destruct (p <=? Z.to_N v)%N eqn:E2.
      * apply N.leb_le in E2. assert ((Z.of_N p - 1 <? v)%Z = true) as -> by (apply Z.ltb_lt; lia). done.
      * apply N.leb_gt in E2. assert ((Z.of_N p - 1 <? v)%Z = false) as -> by (apply Z.ltb_ge; lia). f_equal. lia.
Qed.

Lemma decimal_iff s z : decimal s z <->
  snd (sign_body s) <> [] /\ Forall is_digit (snd (sign_body s)) /\ z = signed (fst (sign_body s)) (dec_value (snd (sign_body s))).
Proof.
  split.
  - intros H. inversion H as [s' H1 H2|s' H1 H2|s' H1 H2]; subst; [|done|done].
    destruct s as [|c s]; [done|].
    assert (is_digit c) as Hc by (by inversion H2). apply is_digit_not_sign in Hc as [Hp Hm].
    unfold sign_body. destruct (Ascii.eqb_spec c "-"); [done|]. destruct (Ascii.eqb_spec c "+"); [done|]. done.
  - intros (H1 & H2 & ->). destruct s as [|c s]; [done|]. revert H1 H2. unfold sign_body.
    destruct (Ascii.eqb_spec c "-") as [->|]; cbn; intros H1 H2; [by apply dec_minus|].
    revert H1 H2. destruct (Ascii.eqb_spec c "+") as [->|]; cbn; intros H1 H2; [by apply dec_plus|by apply dec_plain].
Qed.
Lemma is_digit_dec c : Decision (is_digit c).
Proof. unfold is_digit. apply _. Defined.
Lemma decimal_dec s : {z | decimal s z} + {forall z, ~ decimal s z}.
Proof.
  destruct (decide (snd (sign_body s) <> [])) as [H1|H1].
  - assert (Decision (Forall is_digit (snd (sign_body s)))) as D by (apply Forall_dec, is_digit_dec).
    destruct D as [H2|H2].
    + left. exists (signed (fst (sign_body s)) (dec_value (snd (sign_body s)))). by apply decimal_iff.
    + right. intros z Hz. apply decimal_iff in Hz as (_ & ? & _). done.
  - right. intros z Hz. apply decimal_iff in Hz as (? & _). done.
Qed.

(** a number is read as the nearest value of the type *)
Lemma parse_int_decimal bits s z : (2 <= bits <= 64)%N -> decimal s z ->
  parse_int bits s =
    (clamp (- 2 ^ (Z.of_N bits - 1)) (2 ^ (Z.of_N bits - 1) - 1) z,
     if bool_decide (- 2 ^ (Z.of_N bits - 1) <= z <= 2 ^ (Z.of_N bits - 1) - 1)%Z then ErrNone else ErrRange).
Proof.
  intros Hb H. apply decimal_iff in H as (H1 & H2 & Hz).
  rewrite (parse_int_spec bits s (snd (sign_body s)) []); [|done|by rewrite app_nil_r|done|done].
  rewrite app_nil_r. cbv zeta. rewrite bool_decide_eq_false_2 by done.
  set (v := dec_value (snd (sign_body s))) in *. assert (0 <= v)%Z as Hv by (by apply dec_value_ge).
  set (n := fst (sign_body s)) in *. clearbody n.
  assert (2 * 2 ^ (Z.of_N bits - 1) = 2 ^ Z.of_N bits)%Z as Hd2.
  { rewrite <- Z.pow_succ_r by lia. f_equal. lia. }
  assert (2 <= 2 ^ (Z.of_N bits - 1))%Z as Hpos.
  { change 2%Z with (2 ^ 1)%Z at 1. apply Z.pow_le_mono_r; lia. }
  rewrite <- Hd2. set (p := (2 ^ (Z.of_N bits - 1))%Z) in *. clearbody p. subst z.
  unfold clamp, signed in *. destruct (2 * p - 1 <? v)%Z eqn:E.
  - apply Z.ltb_lt in E. rewrite bool_decide_eq_false_2 by (destruct n; lia). f_equal. destruct n; lia.
  - destruct (_ <? - p)%Z eqn:E1.
    + apply Z.ltb_lt in E1. rewrite bool_decide_eq_false_2 by lia. f_equal. lia.
    + apply Z.ltb_ge in E1. destruct (p - 1 <? _)%Z eqn:E2.
      * apply Z.ltb_lt in E2. rewrite bool_decide_eq_false_2 by lia. f_equal. lia.
      * apply Z.ltb_ge in E2. rewrite bool_decide_eq_true_2 by lia. f_equal. lia.
Qed.
Lemma sign_body_split s : exists p, s = p ++ snd (sign_body s) /\ p ∈ [[]; ["+"]; ["-"]]%char.
Proof.
  destruct s as [|c s]; [exists []; split; [done|set_solver]|]. unfold sign_body.
  destruct (Ascii.eqb_spec c "-") as [->|]; [exists ["-"%char]; split; [done|set_solver]|].
  destruct (Ascii.eqb_spec c "+") as [->|]; [exists ["+"%char]; split; [done|set_solver]|].
  exists []. split; [done|set_solver].
Qed.
Lemma parse_int_not_decimal s : (forall z, ~ decimal s z) -> ~ overlong s -> parse_int 64 s = (0%Z, ErrSyntax).
Proof.
  intros Hn Ho. destruct (digits_span (snd (sign_body s))) as (ds & r & E & Hd & Hr).
  rewrite (parse_int_spec 64 s ds r) by (done || lia). cbv zeta.
  destruct (bool_decide_reflect (ds ++ r = [])) as [|Hne]; [done|].
  destruct (_ <? dec_value ds)%Z eqn:El.
  - exfalso. apply Ho. apply Z.ltb_lt in El. destruct (sign_body_split s) as (p & Hp & Hin).
    exists p, ds, r. rewrite <- E. done.
  - destruct r as [|c r]; [|done]. exfalso. rewrite app_nil_r in E, Hne.
    apply (Hn (signed (fst (sign_body s)) (dec_value ds))). apply decimal_iff. rewrite E. done.
Qed.

(** ** Atoi *)
Lemma atoi_digit c : ((9 <? (N_of_ascii c + 256 - 48) mod 256)%N = false <-> is_digit c) /\
  (is_digit c -> Z.of_N ((N_of_ascii c + 256 - 48) mod 256) = digit_of c).
Proof.
  unfold is_digit, digit_of. pose proof (N_ascii_bounded c) as Hb. set (n := N_of_ascii c) in *.
  destruct (N.lt_ge_cases n 48) as [H|H].
  - rewrite N.mod_small by lia. split; [|lia]. rewrite N.ltb_ge. lia.
  - assert ((n + 256 - 48) mod 256 = n - 48)%N as -> by (symmetry; apply (N.mod_unique _ _ 1); lia).
    split; [rewrite N.ltb_ge; lia|lia].
Qed.
Lemma atoi_loop_spec v ds r : Forall is_digit ds -> stops r ->
  atoi_loop v (ds ++ r) = match r with [] => Some (dec_from v ds) | _ => None end.
Proof.
  intros Hd Hr. revert v. induction Hd as [|c ds Hc Hd IH]; intros v; cbn [app atoi_loop].
  - destruct r as [|c r]; [done|]. cbn in Hr |- *. destruct (atoi_digit c) as [H1 _].
    destruct (9 <? _)%N; [done|]. by destruct (Hr (proj1 H1 eq_refl)).
  - destruct (atoi_digit c) as [H1 H2]. rewrite (proj2 H1 Hc), IH, H2 by done. done.
Qed.
Lemma dec_from_bound v s : Forall is_digit s -> (0 <= v -> dec_from v s < (v + 1) * 10 ^ Z.of_nat (length s))%Z.
Proof.
  intros H. revert v. induction H as [|c s Hc Hs IH]; intros v Hv; [cbn; lia|].
  cbn [dec_from fold_left length]. fold (dec_from (v * 10 + digit_of c) s).
  destruct (digit_val_of c Hc) as [_ Hd]. specialize (IH (v * 10 + digit_of c)%Z).
  rewrite Nat2Z.inj_succ, Z.pow_succ_r by lia.
  assert ((v * 10 + digit_of c + 1) * 10 ^ Z.of_nat (length s) <= (v + 1) * (10 * 10 ^ Z.of_nat (length s)))%Z; [|lia].
  replace ((v + 1) * (10 * 10 ^ Z.of_nat (length s)))%Z with ((v + 1) * 10 * 10 ^ Z.of_nat (length s))%Z by ring.
  apply Z.mul_le_mono_nonneg_r; [apply Z.pow_nonneg; lia|lia].
Qed.
Lemma atoi_parse_int s : atoi s = parse_int 64 s.
Proof.
  unfold atoi. destruct (_ && _) eqn:El; [|done]. apply andb_prop in El as [_ El]. apply Nat.ltb_lt in El.
  destruct (digits_span (snd (sign_body s))) as (ds & r & E & Hd & Hr).
  rewrite (parse_int_spec 64 s ds r) by (done || lia). cbv zeta.
  assert (length (ds ++ r) <= 18) as Hlen.
  { rewrite <- E. assert (length (snd (sign_body s)) <= length s); [|lia].
    destruct s as [|c s]; [done|]. unfold sign_body. destruct (Ascii.eqb c "-"), (Ascii.eqb c "+"); cbn; lia. }
  assert (dec_value ds < 10 ^ 18)%Z as Hsmall.
  { pose proof (dec_from_bound 0 ds Hd) as H. change (dec_from 0 ds) with (dec_value ds) in H.
    assert (10 ^ Z.of_nat (length ds) <= 10 ^ 18)%Z; [|lia].
    rewrite app_length in Hlen. apply Z.pow_le_mono_r; lia. }
  assert (0 <= dec_value ds)%Z as Hpos by (by apply dec_value_ge).
  change (Z.of_N 64) with 64%Z. change (2 ^ (64 - 1))%Z with 9223372036854775808%Z.
  change (2 ^ 64)%Z with 18446744073709551616%Z. change (10 ^ 18)%Z with 1000000000000000000%Z in Hsmall.
  assert ((18446744073709551616 - 1 <? dec_value ds)%Z = false) as -> by (apply Z.ltb_ge; lia).
  assert ((signed (fst (sign_body s)) (dec_value ds) <? - (9223372036854775808))%Z = false) as ->
    by (apply Z.ltb_ge; unfold signed; destruct (fst (sign_body s)); lia).
  assert ((9223372036854775808 - 1 <? signed (fst (sign_body s)) (dec_value ds))%Z = false) as ->
    by (apply Z.ltb_ge; unfold signed; destruct (fst (sign_body s)); lia).
  destruct s as [|c s]; [by rewrite bool_decide_eq_true_2|].
  assert ((if Ascii.eqb c "-" || Ascii.eqb c "+" then s else c :: s) = ds ++ r) as Hb.
  { rewrite <- E. unfold sign_body. destruct (Ascii.eqb c "-"), (Ascii.eqb c "+"); done. }
  rewrite Hb. destruct (bool_decide_reflect (ds ++ r = [])) as [Hn|Hn].
  - rewrite Hn in *. destruct (Ascii.eqb c "-" || Ascii.eqb c "+"); done.
  - destruct (_ && (length _ <? 1)) eqn:E1.
    + apply andb_prop in E1 as [_ E1]. apply Nat.ltb_lt in E1. exfalso. apply Hn. apply nil_length_inv. lia.
    + rewrite (atoi_loop_spec 0 ds r Hd Hr). destruct r as [|a r]; [|done].
      f_equal. unfold sign_body, signed. change (dec_from 0 ds) with (dec_value ds).
      destruct (Ascii.eqb c "-"), (Ascii.eqb c "+"); done.
Qed.

(** ** Unsigned *)
Lemma parse_uint_decimal bits s z : (1 <= bits <= 64)%N -> udecimal s z ->
  parse_uint bits s = (Z.to_N (clamp 0 (2 ^ Z.of_N bits - 1) z),
     if bool_decide (z <= 2 ^ Z.of_N bits - 1)%Z then ErrNone else ErrRange).
Proof.
  intros Hb (H1 & H2 & ->). rewrite <- (app_nil_r s) at 1. rewrite parse_uint_spec by (rewrite ?app_nil_r; done).
  assert (0 <= dec_value s)%Z by (by apply dec_value_ge). unfold clamp.
  assert (0 < 2 ^ Z.of_N bits)%Z by (apply Z.pow_pos_nonneg; lia).
  destruct (_ <? dec_value s)%Z eqn:E.
  - apply Z.ltb_lt in E. rewrite bool_decide_eq_false_2 by lia. f_equal.
    rewrite Z.min_l, Z.max_r by lia. rewrite Z2N.inj_sub, Z2N.inj_pow by lia. rewrite N2Z.id. done.
  - apply Z.ltb_ge in E. rewrite bool_decide_eq_true_2 by lia. f_equal. lia.
Qed.
Definition uoverlong (s : gostr) : Prop := exists ds r, s = ds ++ r /\ Forall is_digit ds /\ (maxu64 < dec_value ds)%Z.
Lemma parse_uint_not_decimal s : (forall z, ~ udecimal s z) -> ~ uoverlong s -> parse_uint 64 s = (0%N, ErrSyntax).
Proof.
  intros Hn Ho. destruct (digits_span s) as (ds & r & -> & Hd & Hr).
  destruct (decide (ds ++ r = [])) as [->|Hne]; [done|].
  rewrite parse_uint_spec by (done || lia). destruct (_ <? dec_value ds)%Z eqn:El.
  - exfalso. apply Ho. apply Z.ltb_lt in El. exists ds, r. done.
  - destruct r as [|c r]; [|done]. exfalso. rewrite app_nil_r in *. apply (Hn (dec_value ds)). done.
Qed.

(** ** Formatting and reading back *)
Lemma digit10_is d : (d < 10)%N -> is_digit (digit_char d) /\ digit_of (digit_char d) = Z.of_N d.
Proof.
  intros H. unfold digit_char. apply N.ltb_lt in H as E. rewrite E. unfold is_digit, digit_of.
  rewrite N_ascii_embedding by lia. lia.
Qed.
Lemma dec_value_format n : Forall is_digit (format_N 10 n) /\ dec_value (format_N 10 n) = Z.of_N n.
Proof.
  destruct (digits_spec 10 n) as (H1 & H2 & _); [lia|]. unfold format_N. rewrite <- H1 at 3. clear H1.
  split.
  - apply Forall_forall. intros c Hc. apply elem_of_list_fmap in Hc as (d & -> & Hd).
    rewrite Forall_forall in H2. by apply digit10_is, H2.
  - unfold dec_value, dvalue. change 0%Z with (Z.of_N 0) at 1. generalize 0%N.
    induction H2 as [|d l Hd Hl IH]; intros v; [done|]. cbn [map fold_left].
    destruct (digit10_is d Hd) as [_ ->]. rewrite <- IH. f_equal. lia.
Qed.
Lemma itoa_decimal z : decimal (itoa z) z.
Proof.
  unfold itoa. assert (forall n, format_N 10 n <> []) as Hne by (intros n; apply format_N_nonempty; lia).
  destruct z as [|p|p].
  - change (format_Z 10 0) with (format_N 10 0). destruct (dec_value_format 0) as [H1 H2].
    replace 0%Z with (dec_value (format_N 10 0)) by done. by constructor.
  - change (format_Z 10 (Z.pos p)) with (format_N 10 (N.pos p)). destruct (dec_value_format (N.pos p)) as [H1 H2].
    replace (Z.pos p) with (dec_value (format_N 10 (N.pos p))) by done. by constructor.
  - change (format_Z 10 (Z.neg p)) with ("-"%char :: format_N 10 (N.pos p)). destruct (dec_value_format (N.pos p)) as [H1 H2].
    replace (Z.neg p) with (- dec_value (format_N 10 (N.pos p)))%Z by (rewrite H2; done). by constructor.
Qed.
Lemma itoa_udecimal z : (0 <= z)%Z -> udecimal (itoa z) z.
Proof.
  intros H. unfold itoa, udecimal. destruct z as [|p|p]; [| |lia].
  - change (format_Z 10 0) with (format_N 10 0). destruct (dec_value_format 0) as [H1 H2].
    split; [apply format_N_nonempty; lia|]. done.
  - change (format_Z 10 (Z.pos p)) with (format_N 10 (N.pos p)). destruct (dec_value_format (N.pos p)) as [H1 H2].
    split; [apply format_N_nonempty; lia|]. done.
Qed.
