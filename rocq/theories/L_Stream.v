(** Proofs about the stream framing. *)
From Coq Require Import ZArith NArith Ascii String List Lia.
From stdpp Require Import base list strings.
From Verif Require Import Base L_Base M_Stream S_Stream.

(** ** Little-endian headers *)
Lemma byte_val_ascii n : (n < 256)%N -> byte_val (ascii_of_N n) = n.
Proof. intros H. apply N_ascii_embedding. exact H. Qed.

Lemma get_put_uint32 n rest : (n < 4294967296)%N -> get_uint32 (put_uint32 n ++ rest) = n.
Proof.
  intros Hn. unfold get_uint32, put_uint32. cbn [app].
  rewrite !byte_val_ascii by (apply N.mod_lt; discriminate).
  pose proof (N.div_mod n 256). pose proof (N.div_mod (n / 256) 256). pose proof (N.div_mod (n / 65536) 256).
  assert (Q1 : (n / 65536 = n / 256 / 256)%N) by (rewrite N.div_div by discriminate; reflexivity).
  assert (Q2 : (n / 16777216 = n / 65536 / 256)%N) by (rewrite N.div_div by discriminate; reflexivity).
  assert (Q3 : (n / 16777216 mod 256 = n / 16777216)%N).
  { apply N.mod_small. apply N.div_lt_upper_bound; [discriminate|]. exact Hn. }
  rewrite Q3. lia.
Qed.
Lemma put_header n : (n < 4294967296)%N -> header_of n (put_uint32 n).
Proof.
  intros Hn. eexists _, _, _, _. split; [reflexivity|].
  rewrite <- (get_put_uint32 n [] Hn) at 1. cbn [get_uint32 app put_uint32]. lia.
Qed.
Lemma get_header n h rest : header_of n h -> get_uint32 (h ++ rest) = n.
Proof. intros (b0 & b1 & b2 & b3 & -> & ->). cbn [get_uint32 app]. lia. Qed.
Lemma header_of_get h : length h = 4 -> header_of (get_uint32 h) h.
Proof.
  intros Hl. destruct h as [|b0 [|b1 [|b2 [|b3 [|]]]]]; try discriminate.
  exists b0, b1, b2, b3. split; [reflexivity|]. cbn [get_uint32]. lia.
Qed.
Lemma header_length n h : header_of n h -> length h = 4.
Proof. intros (? & ? & ? & ? & -> & _). reflexivity. Qed.
Lemma header_bound n h : header_of n h -> (n < 4294967296)%N.
Proof.
  intros (b0 & b1 & b2 & b3 & _ & ->).
  pose proof (byte_val_lt b0). pose proof (byte_val_lt b1). pose proof (byte_val_lt b2). pose proof (byte_val_lt b3). lia.
Qed.
Lemma header_unique n h h' : header_of n h -> header_of n h' -> h = h'.
Proof.
  intros (a0 & a1 & a2 & a3 & -> & ->) (b0 & b1 & b2 & b3 & -> & He).
  pose proof (byte_val_lt a0). pose proof (byte_val_lt a1). pose proof (byte_val_lt a2). pose proof (byte_val_lt a3).
  pose proof (byte_val_lt b0). pose proof (byte_val_lt b1). pose proof (byte_val_lt b2). pose proof (byte_val_lt b3).
  assert (byte_val a0 = byte_val b0) as ->%byte_val_inj by lia.
  assert (byte_val a1 = byte_val b1) as ->%byte_val_inj by lia.
  assert (byte_val a2 = byte_val b2) as ->%byte_val_inj by lia.
  assert (byte_val a3 = byte_val b3) as ->%byte_val_inj by lia. reflexivity.
Qed.

(** ** Reading *)
Definition content (r : reader) : bytes := rd_buf r ++ concat (rd_frags r).

(** A Read delivers a prefix, and either at least one byte or a fragment less. *)
Lemma transport_read_spec n fs b fs' :
  transport_read n fs = Some (b, fs') ->
  concat fs = b ++ concat fs' /\ length b <= n /\
  (0 < n -> length (concat fs') + length fs' < length (concat fs) + length fs /\ length fs' <= length fs).
Proof.
  unfold transport_read. destruct fs as [|f rest]; [discriminate|].
  destruct (Nat.leb_spec (length f) n) as [Hle|Hgt]; intros Heq; injection Heq as <- <-; cbn [concat length].
  - split; [reflexivity|]. rewrite app_length. lia.
  - split; [rewrite app_assoc, take_drop; reflexivity|]. rewrite take_length, !app_length, drop_length. lia.
Qed.
Lemma bufio_read_spec n r b r' :
  0 < n -> bufio_read n r = Some (b, r') ->
  content r = b ++ content r' /\ length b <= n /\
  length (content r') + length (rd_frags r') < length (content r) + length (rd_frags r).
Proof.
  intros Hn. unfold bufio_read, content. destruct r as [buf fs]. cbn [rd_buf rd_frags].
  destruct buf as [|c buf].
  - destruct (Nat.leb_spec bufsize n) as [Hb|Hb].
    + destruct (transport_read n fs) as [[b0 fs0]|] eqn:Ht; [|discriminate]. intros Heq; injection Heq as <- <-.
      apply transport_read_spec in Ht as (He & Hl & Hp). cbn. split; [exact He|]. split; [exact Hl|]. specialize (Hp Hn). lia.
    + destruct (transport_read bufsize fs) as [[b0 fs0]|] eqn:Ht; [|discriminate]. intros Heq; injection Heq as <- <-.
      apply transport_read_spec in Ht as (He & Hl & Hp). cbn [rd_buf rd_frags]. cbn [app].
      assert (Hpos : 0 < bufsize) by (unfold bufsize; lia). specialize (Hp Hpos) as [Hp Hp2].
      rewrite app_assoc, take_drop. split; [exact He|]. rewrite take_length. split; [lia|].
      rewrite app_length, drop_length. rewrite He, app_length in *.
      destruct (decide (length b0 = 0)); lia.
  - intros Heq; injection Heq as <- <-. cbn [rd_buf rd_frags].
    rewrite app_assoc, take_drop. split; [reflexivity|].
    rewrite take_length, !app_length, drop_length. cbn [length]. lia.
Qed.
Lemma bufio_read_none n r : bufio_read n r = None -> content r = [].
Proof.
  unfold bufio_read, content. destruct r as [[|c buf] fs]; cbn [rd_buf rd_frags]; [|discriminate].
  unfold transport_read. destruct fs as [|f fs]; [reflexivity|].
  destruct (Nat.leb bufsize n); [destruct (Nat.leb _ _)|destruct (Nat.leb _ _)]; discriminate.
Qed.

(** io.ReadFull succeeds exactly when there are enough bytes, and gives them. *)
Lemma read_full_spec fuel n r :
  length (content r) + length (rd_frags r) < fuel ->
  match read_full fuel n r with
  | (Some b, r') => content r = b ++ content r' /\ length b = n
  | (None, _) => length (content r) < n
  end.
Proof.
  revert n r. induction fuel as [|fuel IH]; intros n r Hf; [lia|]. destruct n as [|n]; [cbn; auto|].
  cbn [read_full]. destruct (bufio_read (S n) r) as [[b r']|] eqn:Hr.
  - apply bufio_read_spec in Hr as (He & Hl & Hm); [|lia].
    specialize (IH (S n - length b) r'). destruct (read_full fuel (S n - length b) r') as [[rest|] r''].
    + destruct IH as [He' Hl']; [lia|]. split; [rewrite He, He', app_assoc; reflexivity|].
      rewrite app_length. lia.
    + rewrite He, app_length. specialize (IH ltac:(lia)). lia.
  - apply bufio_read_none in Hr. rewrite Hr. cbn. lia.
Qed.

(** What bufio takes from the transport beyond what is asked for. *)
Lemma transport_read_taken n fs b fs' :
  transport_read n fs = Some (b, fs') -> length (concat fs) = length b + length (concat fs').
Proof. intros H. apply transport_read_spec in H as (-> & _). apply app_length. Qed.
Lemma bufio_read_taken n r b r' :
  0 < n -> bufio_read n r = Some (b, r') -> length (rd_buf r) <= bufsize ->
  length (rd_buf r') <= bufsize /\
  (length b < n \/ n <= length b).
Proof.
  intros Hn. unfold bufio_read. destruct r as [[|c buf] fs]; cbn [rd_buf rd_frags].
  - destruct (Nat.leb_spec bufsize n).
    + destruct (transport_read n fs) as [[b0 fs0]|]; [|discriminate]. intros Heq; injection Heq as <- <-. cbn. lia.
    + destruct (transport_read bufsize fs) as [[b0 fs0]|] eqn:Ht; [|discriminate]. intros Heq; injection Heq as <- <-.
      apply transport_read_spec in Ht as (_ & Hl & _). cbn [rd_buf]. rewrite drop_length. lia.
  - intros Heq; injection Heq as <- <-. cbn [rd_buf]. rewrite drop_length. lia.
Qed.
Lemma read_full_taken fuel n r :
  length (rd_buf r) <= bufsize ->
  let '(res, r') := read_full fuel n r in
  length (rd_buf r') <= bufsize /\
  length (content r) <= n + length (content r') /\
  length (content r') <= length (content r).
Proof.
  revert n r. induction fuel as [|fuel IH]; intros n r Hb.
  - destruct n; cbn [read_full]; (split; [exact Hb|lia]).
  - destruct n as [|n]; [cbn [read_full]; split; [exact Hb|lia]|]. cbn [read_full].
    destruct (bufio_read (S n) r) as [[b r']|] eqn:Hr; [|repeat split; [exact Hb|lia|lia]].
    pose proof (bufio_read_taken (S n) r b r' (Nat.lt_0_succ n) Hr Hb) as [Hb' _].
    apply bufio_read_spec in Hr as (He & Hl & _); [|lia].
    specialize (IH (S n - length b) r' Hb').
    destruct (read_full fuel (S n - length b) r') as [[rest|] r'']; rewrite He, app_length; lia.
Qed.

Lemma read_spec frags :
  match ReadStreamWithBuffer frags with
  | (Some msg, _, alloc) =>
      (exists h rest, concat frags = h ++ msg ++ rest /\ header_of (N.of_nat (length msg)) h) /\
      (N.of_nat (length msg) <= MaxPayload)%N /\ alloc = N.of_nat (length msg)
  | (None, _, alloc) =>
      (length (concat frags) < 4) \/
      exists n h rest, header_of n h /\ concat frags = h ++ rest /\
        ((MaxPayload < n)%N /\ alloc = 0%N \/ N.of_nat (length rest) < n)%N
  end.
Proof.
  unfold ReadStreamWithBuffer. set (r0 := Reader [] frags).
  pose proof (read_full_spec (fuel_for r0) LengthHeader r0) as H1.
  destruct (read_full (fuel_for r0) LengthHeader r0) as [[head|] r1].
  2:{ left. unfold LengthHeader in H1. change (content r0) with (concat frags) in H1. apply H1.
      unfold fuel_for. cbn. lia. }
  destruct H1 as [H1 H2]; [unfold fuel_for; cbn; lia|]. change (content r0) with (concat frags) in H1.
  pose proof (header_of_get head H2) as Hh.
  destruct (N.ltb_spec MaxPayload (get_uint32 head)) as [Hbig|Hok].
  - right. exists (get_uint32 head), head, (content r1). auto.
  - pose proof (read_full_spec (fuel_for r1) (N.to_nat (get_uint32 head)) r1) as H3.
    destruct (read_full (fuel_for r1) (N.to_nat (get_uint32 head)) r1) as [[body|] r2].
    + destruct H3 as [H3 H4]; [unfold fuel_for, content; rewrite app_length; lia|].
      rewrite H4, N2Nat.id. split; [|split; [exact Hok|reflexivity]].
      exists head, (content r2). split; [congruence|exact Hh].
    + right. exists (get_uint32 head), head, (content r1). split; [exact Hh|]. split; [exact H1|]. right.
      specialize (H3 ltac:(unfold fuel_for, content; rewrite app_length; lia)). lia.
Qed.

(** ** Writing *)
(** Everything accepted so far and the room left. *)
Definition room (w : writer) : nat := length (wr_out w) + wr_cap w.

Lemma transport_write_spec b w :
  match transport_write b w with
  | (true, w') => wr_out w' = wr_out w ++ b /\ room w' = room w
  | (false, w') => (exists p, wr_out w' = wr_out w ++ p /\ p `prefix_of` b) /\ room w < length (wr_out w ++ b)
  end.
Proof.
  unfold transport_write, room. destruct (Nat.leb_spec (length b) (wr_cap w)) as [Hle|Hgt]; cbn [wr_out wr_cap].
  - split; [reflexivity|]. rewrite app_length. lia.
  - split; [|rewrite app_length; lia]. eexists. split; [reflexivity|]. exists (drop (wr_cap w) b). rewrite take_drop. reflexivity.
Qed.

Lemma bufio_write_spec p buf w :
  length buf <= bufsize ->
  match bufio_write p buf w with
  | (true, buf', w') => wr_out w' ++ buf' = wr_out w ++ buf ++ p /\ room w' = room w /\
      exists q, wr_out w' = wr_out w ++ q
  | (false, _, w') => (exists q, wr_out w' = wr_out w ++ q /\ q `prefix_of` buf ++ p) /\ room w < length (wr_out w ++ buf ++ p)
  end.
Proof.
  intros Hb. unfold bufio_write. destruct (Nat.leb_spec (length p) (bufsize - length buf)) as [Hfit|Hbig].
  - split; [auto|]. split; [auto|]. exists []. rewrite app_nil_r. reflexivity.
  - set (direct := fun p w => if Nat.leb (length p) bufsize then (true, p, w) else
      let '(ok, w') := transport_write p w in (ok, [], w')).
    assert (Hd : forall q v, match direct q v with
      | (true, buf', w') => wr_out w' ++ buf' = wr_out v ++ q /\ room w' = room v /\
          exists r, wr_out w' = wr_out v ++ r
      | (false, _, w') => (exists r, wr_out w' = wr_out v ++ r /\ r `prefix_of` q) /\ room v < length (wr_out v ++ q)
      end).
    { intros q v. unfold direct. destruct (Nat.leb (length q) bufsize).
      { split; [auto|]. split; [auto|]. exists []. rewrite app_nil_r. reflexivity. }
      pose proof (transport_write_spec q v) as Ht. destruct (transport_write q v) as [[|] v']; [|exact Ht].
      rewrite app_nil_r. destruct Ht as [Ht1 Ht2]. eauto. }
    destruct buf as [|c buf]; [apply (Hd p w)|].
    pose proof (transport_write_spec ((c :: buf) ++ take (bufsize - length (c :: buf)) p) w) as Ht.
    destruct (transport_write ((c :: buf) ++ take (bufsize - length (c :: buf)) p) w) as [[|] w1].
    + destruct Ht as [Ho Hr]. specialize (Hd (drop (bufsize - length (c :: buf)) p) w1).
      assert (He : wr_out w1 ++ drop (bufsize - length (c :: buf)) p = wr_out w ++ (c :: buf) ++ p).
      { rewrite Ho, <- !app_assoc, take_drop. reflexivity. }
      rewrite He, Hr in Hd.
      unfold direct in Hd.
      match goal with |- (let (_, _) := ?x in _) => destruct x as [[[|] buf'] w'] end.
      { destruct Hd as (Hd1 & Hd2 & r & Hd3). split; [exact Hd1|]. split; [exact Hd2|].
        eexists. rewrite Hd3, Ho, <- app_assoc. reflexivity. }
      destruct Hd as ((q & Hq1 & Hq2) & Hl). split; [|exact Hl].
      eexists. split; [rewrite Hq1, Ho, <- app_assoc; reflexivity|].
      rewrite <- app_assoc. apply prefix_app. rewrite <- (take_drop (bufsize - length (c :: buf)) p) at 2.
      apply prefix_app. exact Hq2.
    + destruct Ht as [(q & Hq1 & Hq2) Hl]. split.
      * exists q. split; [exact Hq1|]. etransitivity; [exact Hq2|]. apply prefix_app.
        exists (drop (bufsize - length (c :: buf)) p). rewrite take_drop. reflexivity.
      * rewrite !app_length, take_length in Hl. rewrite !app_length. lia.
Qed.

Lemma write_spec msg w :
  let data := put_uint32 (N.of_nat (length msg) mod 4294967296) ++ msg in
  let '(ok, w') := WriteStreamWithBuffer msg w in
  (ok = true -> wr_out w' = wr_out w ++ data) /\
  (ok = false -> exists p, wr_out w' = wr_out w ++ p /\ p `prefix_of` data) /\
  (ok = true <-> length data <= wr_cap w).
Proof.
  intros data. unfold WriteStreamWithBuffer. set (h := put_uint32 (N.of_nat (length msg) mod 4294967296)) in *.
  assert (Hlen : forall v, (room v < length (wr_out v ++ data) <-> wr_cap v < length data)).
  { intros v. unfold room. rewrite app_length. lia. }
  pose proof (bufio_write_spec h [] w ltac:(cbn; unfold bufsize; lia)) as H1.
  assert (Hh : bufio_write h [] w = (true, h, w)) by reflexivity.
  rewrite Hh. clear H1 Hh.
  assert (Hh4 : length h <= bufsize).
  { change (length h) with 4. unfold bufsize. lia. }
  pose proof (bufio_write_spec msg h w Hh4) as H1. fold data in H1.
  destruct (bufio_write msg h w) as [[[|] buf2] w2].
  - destruct H1 as (Ho & Hr & p2 & Hw2). pose proof (transport_write_spec buf2 w2) as H2.
    destruct (transport_write buf2 w2) as [[|] w3]; rewrite ?Ho in H2.
    + destruct H2 as [Ho2 Hr2]. split; [auto|]. split; [discriminate|]. split; [|auto]. intros _.
      unfold room in *. rewrite Ho2, app_length in Hr2. lia.
    + destruct H2 as [(p & Hp & Hpp) Hl]. split; [discriminate|]. split; [|split; [discriminate|]].
      { intros _. destruct Hpp as [q Hq]. 
        rewrite Hw2 in Ho, Hp. rewrite <- app_assoc in Ho. apply app_inv_head in Ho.
        exists (p2 ++ p). split; [rewrite app_assoc; exact Hp|]. exists q. rewrite <- app_assoc, <- Hq. auto. }
      rewrite Hr in Hl. apply Hlen in Hl. lia.
  - destruct H1 as [Hp Hl]. split; [discriminate|]. split; [auto|]. split; [discriminate|].
    apply Hlen in Hl. lia.
Qed.

Lemma put_uint32_length n : length (put_uint32 n) = 4.
Proof. reflexivity. Qed.
