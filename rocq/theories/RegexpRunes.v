From Coq Require Import NArith ZArith ZifyN Lia.
From Verif Require Import Base GoStr NetRegexp RegexpSpec.
Local Open Scope nat_scope.
Ltac Zify.zify_post_hook ::= Z.to_euclidean_division_equations.

Lemma rune_len_pos a s : 1 <= rune_len (a :: s).
Proof.
  unfold rune_len. repeat match goal with
  | |- context [match ?x with _ => _ end] => destruct x; try lia
  end.
Qed.
Lemma rune_len_le s : rune_len s <= length s.
Proof.
  destruct s as [|a s]; [done|]. unfold rune_len.
  destruct s as [|x [|y [|z s]]]; cbn [length]; repeat match goal with
  | |- context [if ?x then _ else _] => destruct x; try lia
  end.
Qed.
Lemma between_iff lo hi a : between lo hi a = true <-> (lo <= N_of_ascii a <= hi)%N.
Proof. unfold between. rewrite andb_true_iff, !N.leb_le. done. Qed.
Lemma between_not lo hi a : between lo hi a = false <-> (N_of_ascii a < lo \/ hi < N_of_ascii a)%N.
Proof. rewrite <- not_true_iff_false, between_iff. lia. Qed.
Ltac betweens := repeat match goal with
  | H : between _ _ _ = true |- _ => apply between_iff in H
  | H : between _ _ _ = false |- _ => apply between_not in H
  end.
Ltac ranges := unfold tail_byte; repeat match goal with
  | |- context [between ?l ?h ?a] => let H := fresh in destruct (between l h a) eqn:H; cbn match; cbn [andb]
  end.
Lemma octet_val n : (n < 256)%N -> N_of_ascii (ascii_of_N n) = n.
Proof. apply N_ascii_embedding. Qed.
Ltac octets := repeat match goal with
  | H : context [N_of_ascii (ascii_of_N ?n)] |- _ => rewrite (octet_val n) in H by lia
  end.
Lemma utf8_len x post : utf8 x -> rune_len (x ++ post) = length x.
Proof.
  destruct 1 as [n H|n H|n H Hs|n H]; cbn [app length]; unfold rune_len.
  - ranges; try reflexivity; exfalso; betweens; octets; lia.
  - assert (2 <= n / 64 <= 31 /\ n mod 64 <= 63)%N as [H1 H2] by lia.
    generalize dependent (n / 64)%N; intros p ?; generalize dependent (n mod 64)%N; intros q ?; clear H.
    ranges; try reflexivity; exfalso; betweens; octets; lia.
  - assert (n / 4096 <= 15 /\ n / 64 mod 64 <= 63 /\ n mod 64 <= 63 /\ (n / 4096 = 0 -> 32 <= n / 64 mod 64) /\
      (n / 4096 = 13 -> n / 64 mod 64 <= 31))%N as (H1 & H2 & H3 & H4 & H5) by (split_and!; lia).
    clear H Hs. generalize dependent (n / 4096)%N; intros p; generalize dependent (n / 64 mod 64)%N; intros q ?;
      generalize dependent (n mod 64)%N; intros; clear n.
    ranges; try reflexivity; exfalso; betweens; octets; lia.
  - assert (n / 262144 <= 4 /\ n / 4096 mod 64 <= 63 /\ n / 64 mod 64 <= 63 /\ n mod 64 <= 63 /\ (n / 262144 = 0 -> 16 <= n / 4096 mod 64) /\
      (n / 262144 = 4 -> n / 4096 mod 64 <= 15))%N as (H1 & H2 & H3 & H4 & H5 & H6) by (split_and!; lia).
    clear H. generalize dependent (n / 262144)%N; intros p; generalize dependent (n / 4096 mod 64)%N; intros q ?;
      generalize dependent (n / 64 mod 64)%N; intros ? ?; generalize dependent (n mod 64)%N; intros; clear n.
    ranges; try reflexivity; exfalso; betweens; octets; lia.
Qed.
Lemma utf8_one a : utf8 [a] <-> (N_of_ascii a < 128)%N.
Proof.
  split.
  - inversion 1; subst. rewrite octet_val by lia. done.
  - intros H. rewrite <- (ascii_N_embedding a). by constructor.
Qed.
Lemma utf8_2_of a b : between 194 223 a = true -> between 128 191 b = true -> utf8 [a; b].
Proof.
  intros. betweens. set (n := ((N_of_ascii a - 192) * 64 + (N_of_ascii b - 128))%N).
  rewrite <- (ascii_N_embedding a), <- (ascii_N_embedding b).
  replace (N_of_ascii a) with (192 + n / 64)%N by (subst n; lia).
  replace (N_of_ascii b) with (128 + n mod 64)%N by (subst n; lia).
  constructor. subst n; lia.
Qed.
Lemma value_3 A B C : (224 <= A <= 239 -> 128 <= B <= 191 -> 128 <= C <= 191 -> (A = 224 -> 160 <= B) -> (A = 237 -> B <= 159) ->
  exists n, (2048 <= n < 65536 /\ ~ (55296 <= n <= 57343)) /\ A = 224 + n / 4096 /\ B = 128 + n / 64 mod 64 /\ C = 128 + n mod 64)%N.
Proof. intros. exists ((A - 224) * 4096 + (B - 128) * 64 + (C - 128))%N. split_and!; lia. Qed.
Lemma utf8_3_of a b c : let A := N_of_ascii a in let B := N_of_ascii b in let C := N_of_ascii c in
  (224 <= A <= 239 -> 128 <= B <= 191 -> 128 <= C <= 191 -> (A = 224 -> 160 <= B) -> (A = 237 -> B <= 159) -> utf8 [a; b; c])%N.
Proof.
  intros A B C H1 H2 H3 H4 H5. destruct (value_3 A B C H1 H2 H3 H4 H5) as (n & [Hn Hs] & HA & HB & HC).
  rewrite <- (ascii_N_embedding a), <- (ascii_N_embedding b), <- (ascii_N_embedding c). subst A B C. rewrite HA, HB, HC. by constructor.
Qed.
Lemma value_4 A B C D : (240 <= A <= 244 -> 128 <= B <= 191 -> 128 <= C <= 191 -> 128 <= D <= 191 -> (A = 240 -> 144 <= B) -> (A = 244 -> B <= 143) ->
  exists n, (65536 <= n < 1114112) /\ A = 240 + n / 262144 /\ B = 128 + n / 4096 mod 64 /\ C = 128 + n / 64 mod 64 /\ D = 128 + n mod 64)%N.
Proof. intros. exists ((A - 240) * 262144 + (B - 128) * 4096 + (C - 128) * 64 + (D - 128))%N. split_and!; lia. Qed.
Lemma utf8_4_of a b c d : let A := N_of_ascii a in let B := N_of_ascii b in let C := N_of_ascii c in let D := N_of_ascii d in
  (240 <= A <= 244 -> 128 <= B <= 191 -> 128 <= C <= 191 -> 128 <= D <= 191 -> (A = 240 -> 144 <= B) -> (A = 244 -> B <= 143) -> utf8 [a; b; c; d])%N.
Proof.
  intros A B C D H1 H2 H3 H4 H5 H6. destruct (value_4 A B C D H1 H2 H3 H4 H5 H6) as (n & Hn & HA & HB & HC & HD).
  rewrite <- (ascii_N_embedding a), <- (ascii_N_embedding b), <- (ascii_N_embedding c), <- (ascii_N_embedding d). subst A B C D.
  rewrite HA, HB, HC, HD. by constructor.
Qed.
(** the first bytes are a character, or one byte is left by itself *)
Lemma rune_take a s : utf8 (take (rune_len (a :: s)) (a :: s)) \/ rune_len (a :: s) = 1.
Proof.
  unfold rune_len. destruct (between 194 223 a) eqn:E2.
  - destruct s as [|x s]; [by right|].
    destruct (between 224 224 a) eqn:F1; [betweens; lia|]. destruct (between 237 237 a) eqn:F2; [betweens; lia|].
    destruct (between 240 240 a) eqn:F3; [betweens; lia|]. destruct (between 244 244 a) eqn:F4; [betweens; lia|].
    destruct (tail_byte x) eqn:Hx; [|by right]. left. cbn [take]. rewrite take_0. by apply utf8_2_of.
  - destruct (between 224 239 a) eqn:E3.
    + destruct s as [|x [|y s]]; [by right..|].
      destruct (between 240 240 a) eqn:F3; [betweens; lia|]. destruct (between 244 244 a) eqn:F4; [betweens; lia|].
      destruct (between 224 224 a) eqn:F1; [|destruct (between 237 237 a) eqn:F2];
        unfold tail_byte; ranges; first [by right|left; cbn [take]; rewrite ?take_0; apply utf8_3_of; betweens; lia].
    + destruct (between 240 244 a) eqn:E4; [|by right]. destruct s as [|x [|y [|z s]]]; [by right..|].
      destruct (between 224 224 a) eqn:F1; [betweens; lia|]. destruct (between 237 237 a) eqn:F2; [betweens; lia|].
      destruct (between 240 240 a) eqn:F3; [|destruct (between 244 244 a) eqn:F4];
        unfold tail_byte; ranges; first [by right|left; cbn [take]; rewrite ?take_0; apply utf8_4_of; betweens; lia].
Qed.
Lemma character_iff x post : character x post <-> x <> [] /\ length x = rune_len (x ++ post).
Proof.
  split.
  - destruct 1 as [x post Hx|a post Hn].
    + split; [by destruct Hx|]. by rewrite utf8_len.
    + split; [done|]. cbn [app length]. destruct (rune_take a post) as [H|H]; [|done]. exfalso.
      eapply Hn; [|exact H]. by rewrite take_drop.
  - intros [Hne Hl]. destruct x as [|a x]; [done|]. cbn [app] in Hl. destruct (rune_take a (x ++ post)) as [H|H].
    + rewrite <- Hl in H. change (a :: x ++ post) with ((a :: x) ++ post) in H. rewrite take_app in H. by constructor.
    + assert (x = []) as -> by (destruct x; [done|]; cbn [length app] in *; lia). cbn [app] in *.
      destruct (N.ltb_spec (N_of_ascii a) 128); [constructor; by apply utf8_one|].
      apply ch_byte. intros x v Heq Hx. pose proof (utf8_len _ v Hx) as Hlen. rewrite <- Heq, H in Hlen.
      destruct x as [|b [|c x]]; [done| |discriminate]. injection Heq as -> _. apply utf8_one in Hx. lia.
Qed.
