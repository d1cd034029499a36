(** The writer of net/http: it keeps the contract of io.Writer, and with enough
    room the writing of Wire.v is that of Ctx.v. *)
From Verif Require Import Base GoStr Strconv Pattern Tree Header Router Ctx Content Wire WireSpec WireFacts.
Local Open Scope Z_scope.

Section Http.
Context {A V : Type} (sniff : gostr -> gostr).

Definition arrived (s : conn V * nat) : gostr := rw_body (cn_rw (fst s)).

Lemma raw_Write_sent d (c : conn V) :
  exists code h, rw_sent (cn_rw (raw_Write d c)) = Some (code, h) /\
    (match rw_sent (cn_rw c) with Some (k, _) => code = k | None => code = 200 end) /\
    rw_body (cn_rw (raw_Write d c)) = rw_body (cn_rw c) ++ (if body_allowed code then d else []).
Proof.
  unfold raw_Write. cbn [log cn_rw]. destruct (rw_sent (cn_rw c)) as [[k h]|] eqn:E; simpl.
  - rewrite E. simpl. exists k, h. destruct (body_allowed k) eqn:B; simpl; [done|]. rewrite app_nil_r. done.
  - exists 200, (rw_hdr (cn_rw c)). done.
Qed.

Lemma wWrite_written {S} (u : writer S) d x :
  w_written x = true ->
  wWrite u sniff d x = (let '(n, ok, s) := u_write u d (w_under x) in (Norm (n, ok), mkW (w_written x) (w_status x) s)).
Proof. intros W. unfold wWrite. rewrite W. simpl. rewrite W. reflexivity. Qed.

Lemma http_honest : honest (http_writer (V := V)) arrived.
Proof.
  split.
  - intros d [c room] n ok s'. cbn [http_writer u_write fst snd].
    destruct (raw_Write_sent (take (Nat.min room (length d)) d) c) as (code & h & E & _ & B). rewrite E.
    destruct (body_allowed code) eqn:Ba; intros Ex; injection Ex as <- <- <-; unfold arrived; cbn [fst].
    + split; [lia|]. split; [intros H; apply Nat.eqb_neq; lia|]. by rewrite B.
    + split; [lia|]. split; [intros H; apply Nat.eqb_neq; lia|]. rewrite B. by rewrite take_0.
  - intros h [c room]. done.
  - intros code [c room]. cbn [http_writer u_head]. unfold raw_WriteHeader. cbn [log cn_rw fst snd].
    destruct (rw_sent (cn_rw c)) as [[k h]|]; [done|]. by destruct (valid_code code).
Qed.

(** the context of Wire.v that a context of Ctx.v is *)
Definition view (x : ctxobj A V) (c : conn V) (room : nat) : wctx (conn V * nat) :=
  mkW (x_written x) (x_status x) (c, room).

Lemma view_WriteHeader code (x x' : ctxobj A V) c c' room o :
  ctx_WriteHeader code x c = (o, (x', c')) ->
  wWriteHeader http_writer code (view x c room) = (o, view x' c' room).
Proof.
  unfold ctx_WriteHeader, wWriteHeader. cbn [view w_written w_under]. destruct (x_written x).
  - intros E. injection E as <- <- <-. done.
  - cbn [http_writer u_head fst snd]. destruct (raw_WriteHeader code c) as [o1 c1].
    intros E. injection E as <- <- <-. done.
Qed.

Lemma view_set k v (x : ctxobj A V) c room :
  wSet http_writer k v (view x c room) = view x (set_hdr c (h_set (rw_hdr (cn_rw c)) k v)) room.
Proof. done. Qed.

Lemma http_write_roomy d (c : conn V) room :
  (length d <= room)%nat ->
  exists n ok, u_write http_writer d (c, room) = (n, ok, (raw_Write d c, (room - n)%nat)).
Proof.
  intros H. cbn [http_writer u_write fst snd].
  replace (Nat.min room (length d)) with (length d) by lia. rewrite firstn_all.
  destruct (raw_Write_sent d c) as (code & h & E & _ & _). rewrite E.
  destruct (body_allowed code); [by eexists _, _|]. exists 0%nat, (length d =? 0)%nat. by rewrite Nat.sub_0_r.
Qed.

(** with enough room, writing is what Ctx.v says *)
Lemma view_Write d (x x' : ctxobj A V) c c' room o :
  (length d <= room)%nat ->
  ctx_Write sniff d x c = (o, (x', c')) ->
  match o with
  | Norm _ => exists n ok, wWrite http_writer sniff d (view x c room) = (Norm (n, ok), view x' c' (room - n))
  | Throw v => wWrite http_writer sniff d (view x c room) = (Throw v, view x' c' room)
  end.
Proof.
  intros Hr. unfold ctx_Write, wWrite. cbn [view w_written]. destruct (x_written x) eqn:W; simpl negb; cbn iota.
  - intros E. injection E as <- <- <-. cbn [view w_under].
    destruct (http_write_roomy d c room Hr) as (n & ok & ->). exists n, ok. unfold view. by rewrite W.
  - assert (Q : (if negb (length d =? 0)%nat &&
                  seqb (h_get (u_hdr http_writer (w_under (view x c room))) (L "Content-Type")) []
               then wSet http_writer (L "Content-Type") (sniff d) (view x c room)
               else view x c room) =
            view x (if negb (length d =? 0)%nat && seqb (h_get (rw_hdr (cn_rw c)) (L "Content-Type")) []
                    then set_hdr c (h_set (rw_hdr (cn_rw c)) (L "Content-Type") (sniff d)) else c) room).
    { cbn [view w_under http_writer u_hdr fst].
      destruct (negb (length d =? 0)%nat && seqb (h_get (rw_hdr (cn_rw c)) (L "Content-Type")) []); done. }
    rewrite Q. clear Q.
    set (c0 := if (_ : bool) then set_hdr c _ else c).
    destruct (ctx_WriteHeader 200 x c0) as [o1 [x1 c1]] eqn:E1.
    rewrite (view_WriteHeader _ _ _ _ _ room _ E1).
    destruct o1 as [[]|v]; intros E; injection E as <- <- <-; [|done]. cbn [view w_under].
    destruct (http_write_roomy d c1 room Hr) as (n & ok & ->). exists n, ok. done.
Qed.

(** ** what net/http answers on a new connection *)
Definition fresh (c : conn V) (room : nat) : wctx (conn V * nat) := mkW false 0 (c, room).

Lemma wJSON_http code d c room :
  rw_sent (cn_rw c) = None -> d <> [] ->
  if valid_code code
  then exists x', wJSON http_writer sniff code (Some d) (fresh c room) =
                    (Norm (body_allowed code && (length d <=? room)%nat), x') /\
       w_status x' = code /\
       fmap fst (rw_sent (cn_rw (fst (w_under x')))) = Some code /\
       arrived (w_under x') = arrived (c, room) ++ (if body_allowed code then take room d else [])
  else exists v x', wJSON http_writer sniff code (Some d) (fresh c room) = (Throw v, x').
Proof.
  intros Hs Hd. unfold wJSON, wWriteHeader. cbn [fresh w_written w_under http_writer u_head fst snd].
  unfold raw_WriteHeader. cbn [log cn_rw]. rewrite Hs. destruct (valid_code code) eqn:Vc; [|by eexists _, _].
  set (c1 := set_rw _ _). cbn beta iota zeta.
  rewrite wWrite_written by done.
  change (w_under (wSet http_writer HeaderContentType MIMEApplicationJSONCharsetUTF8 (mkW true code (c1, room))))
    with (set_hdr c1 (h_set (rw_hdr (cn_rw c1)) HeaderContentType MIMEApplicationJSONCharsetUTF8), room).
  set (c2 := set_hdr c1 _). set (n := Nat.min room (length d)).
  cbn [http_writer u_write fst snd wSet w_status]. fold n.
  destruct (raw_Write_sent (take n d) c2) as (k & h & E & K & B). rewrite E.
  assert (k = code) as -> by exact K.
  assert (Hl : (0 < length d)%nat) by (destruct d; [done|simpl; lia]).
  destruct (body_allowed code) eqn:Ba.
  - eexists. split; [|split; [|split]].
    + f_equal. f_equal. simpl. destruct (Nat.leb_spec (length d) room); [apply Nat.eqb_eq|apply Nat.eqb_neq]; subst n; lia.
    + done.
    + cbn [w_under fst]. by rewrite E.
    + unfold arrived. cbn [w_under fst]. rewrite B. cbn. f_equal. subst n.
      destruct (decide (room <= length d)%nat) as [H|H].
      * by replace (Nat.min room (length d)) with room by lia.
      * replace (Nat.min room (length d)) with (length d) by lia. rewrite !take_ge; [done|lia|done].
  - eexists. split; [|split; [|split]].
    + f_equal. f_equal. simpl. apply Nat.eqb_neq. lia.
    + done.
    + cbn [w_under fst]. by rewrite E.
    + unfold arrived. cbn [w_under fst]. rewrite B. cbn. done.
Qed.
End Http.
