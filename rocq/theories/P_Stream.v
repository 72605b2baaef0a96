(** Property theorems: stream framing (C11-C14). *)
From Coq Require Import ZArith NArith Ascii String List Lia.
From stdpp Require Import base list strings.
From Verif Require Import Base L_Base M_Stream S_Stream L_Stream.

(** ** C11 *)
Theorem C11_write_puts_a_frame :
  forall msg w w', (N.of_nat (length msg) <= limit)%N ->
    WriteStreamWithBuffer msg w = (true, w') ->
    exists f, frame msg f /\ wr_out w' = wr_out w ++ f.
Proof.
  intros msg w w' Hl Hw. pose proof (write_spec msg w) as H. cbn zeta in H. rewrite Hw in H.
  destruct H as (Ho & _). rewrite N.mod_small in Ho by (unfold limit in Hl; lia).
  eexists. split; [|apply Ho; reflexivity]. eexists. split; [|reflexivity].
  apply put_header. unfold limit in Hl. lia.
Qed.
Print Assumptions C11_write_puts_a_frame.

(** A frame is read back whatever the fragmentation and whatever follows. *)
Theorem C11_read_back :
  forall msg f frags rest,
    (N.of_nat (length msg) <= limit)%N -> frame msg f -> concat frags = f ++ rest ->
    exists left, ReadStreamWithBuffer frags = (Some msg, left, N.of_nat (length msg)).
Proof.
  intros msg f frags rest Hl (h & Hh & ->) Hc. pose proof (read_spec frags) as H.
  destruct (ReadStreamWithBuffer frags) as [[[m|] left] alloc].
  - destruct H as ((h' & rest' & He & Hh') & _ & ->). rewrite Hc, <- app_assoc in He.
    apply app_inj_1 in He as [<- He]; [|rewrite (header_length _ _ Hh), (header_length _ _ Hh'); reflexivity].
    assert (Heq : N.of_nat (length msg) = N.of_nat (length m)).
    { rewrite <- (get_header _ _ [] Hh), <- (get_header _ _ [] Hh'). reflexivity. }
    apply app_inj_1 in He as [<- _]; [|lia]. eauto.
  - exfalso. destruct H as [H|(n & h' & r & Hn & He & Hor)].
    + rewrite Hc, !app_length, (header_length _ _ Hh) in H. lia.
    + rewrite Hc, <- app_assoc in He.
      apply app_inj_1 in He as [<- <-]; [|rewrite (header_length _ _ Hh), (header_length _ _ Hn); reflexivity].
      assert (Heq : N.of_nat (length msg) = n).
      { rewrite <- (get_header _ _ [] Hh), <- (get_header _ _ [] Hn). reflexivity. }
      rewrite app_length in Hor. unfold limit, MaxPayload in *. destruct Hor as [[Hor _]|Hor]; lia.
Qed.
Print Assumptions C11_read_back.

(** Together: a transport with enough room takes the message, and the other side
    reads it. *)
Theorem C11_round_trip :
  forall msg cap ok w' frags rest,
    (N.of_nat (length msg) <= limit)%N -> 4 + length msg <= cap ->
    WriteStreamWithBuffer msg (Writer [] cap) = (ok, w') ->
    ok = true /\
    (concat frags = wr_out w' ++ rest ->
     exists left alloc, ReadStreamWithBuffer frags = (Some msg, left, alloc)).
Proof.
  intros msg cap ok w' frags rest Hl Hcap Hw.
  pose proof (write_spec msg (Writer [] cap)) as H. cbn zeta in H. rewrite Hw in H. cbn [wr_cap] in H.
  destruct H as (_ & _ & Hok).
  assert (ok = true) as -> by (apply Hok; rewrite app_length, put_uint32_length; lia).
  split; [reflexivity|]. intros Hc.
  destruct (C11_write_puts_a_frame _ _ _ Hl Hw) as (f & Hf & Hfo). rewrite Hfo in Hc. cbn in Hc.
  destruct (C11_read_back msg f frags rest Hl Hf Hc) as [left Hr]. eauto.
Qed.
Print Assumptions C11_round_trip.

(** When the transport fails, what was sent is a prefix of the frame. *)
Theorem C11_failed_write_is_prefix :
  forall msg w w', (N.of_nat (length msg) <= limit)%N ->
    WriteStreamWithBuffer msg w = (false, w') ->
    exists f p q, frame msg f /\ f = p ++ q /\ wr_out w' = wr_out w ++ p.
Proof.
  intros msg w w' Hl Hw. pose proof (write_spec msg w) as H. cbn zeta in H. rewrite Hw in H.
  destruct H as (_ & Hp & _). destruct (Hp eq_refl) as (p & Ho & q & Hq).
  rewrite N.mod_small in Hq by (unfold limit in Hl; lia).
  eexists _, p, q. split; [|split; [exact Hq|exact Ho]].
  eexists. split; [|reflexivity]. apply put_header. unfold limit in Hl. lia.
Qed.
Print Assumptions C11_failed_write_is_prefix.

Example C11_example :
  let '(ok, w') := WriteStreamWithBuffer (to_bytes "hello") (Writer [] 100) in
  ok = true /\ length (wr_out w') = 9 /\
  fst (fst (ReadStreamWithBuffer [take 2 (wr_out w'); []; take 3 (drop 2 (wr_out w')); drop 5 (wr_out w') ++ to_bytes "next"]))
    = Some (to_bytes "hello").
Proof. vm_compute. auto. Qed.

(** ** C12 *)
Theorem C12_limit :
  forall frags res left alloc, ReadStreamWithBuffer frags = (res, left, alloc) ->
    (alloc <= limit)%N /\
    (forall msg, res = Some msg -> (N.of_nat (length msg) <= limit)%N) /\
    length (concat frags) <= length (concat left) + 4 + 4096 + N.to_nat alloc.
Proof.
  intros frags res left alloc Hr. split; [|split].
  - unfold ReadStreamWithBuffer in Hr.
    destruct (read_full (fuel_for (Reader [] frags)) LengthHeader (Reader [] frags)) as [[head|] r1].
    + destruct (N.ltb_spec MaxPayload (get_uint32 head)) as [Hb|Hb].
      * injection Hr as _ _ <-. unfold limit. lia.
      * destruct (read_full (fuel_for r1) _ r1). injection Hr as _ _ <-. exact Hb.
    + injection Hr as _ _ <-. unfold limit. lia.
  - intros msg ->. pose proof (read_spec frags) as H. rewrite Hr in H. apply H.
  - unfold ReadStreamWithBuffer in Hr.
    pose proof (read_full_taken (fuel_for (Reader [] frags)) LengthHeader (Reader [] frags)) as H1.
    cbn [rd_buf length] in H1. specialize (H1 ltac:(lia)).
    destruct (read_full (fuel_for (Reader [] frags)) LengthHeader (Reader [] frags)) as [hd r1].
    destruct H1 as (Hb1 & Hc1 & _). change (content (Reader [] frags)) with (concat frags) in Hc1.
    unfold content in Hc1. rewrite app_length in Hc1.
    change (length (rd_buf r1) <= 4096) in Hb1. unfold LengthHeader in Hc1.
    destruct hd as [head|]; [|injection Hr as <- <- <-; lia].
    destruct (N.ltb MaxPayload (get_uint32 head)); [injection Hr as <- <- <-; lia|].
    pose proof (read_full_taken (fuel_for r1) (N.to_nat (get_uint32 head)) r1 Hb1) as H2.
    destruct (read_full (fuel_for r1) (N.to_nat (get_uint32 head)) r1) as [body r2].
    destruct H2 as (Hb2 & Hc2 & _). injection Hr as <- <- <-. unfold content in Hc2. rewrite !app_length in Hc2.
    change (length (rd_buf r2) <= 4096) in Hb2. lia.
Qed.
Print Assumptions C12_limit.

Theorem C12_oversized_refused :
  forall frags n h rest,
    header_of n h -> concat frags = h ++ rest -> (limit < n)%N ->
    exists left, ReadStreamWithBuffer frags = (None, left, 0%N) /\
      length (concat frags) <= length (concat left) + 4 + 4096.
Proof.
  intros frags n h rest Hh Hc Hn. pose proof (read_spec frags) as H.
  destruct (ReadStreamWithBuffer frags) as [[[m|] left] alloc] eqn:Hr.
  - exfalso. destruct H as ((h' & rest' & He & Hh') & Hl & _). rewrite Hc in He.
    apply app_inj_1 in He as [<- He]; [|rewrite (header_length _ _ Hh), (header_length _ _ Hh'); reflexivity].
    assert (Heq : n = N.of_nat (length m)).
    { rewrite <- (get_header _ _ [] Hh), <- (get_header _ _ [] Hh'). reflexivity. }
    unfold limit, MaxPayload in *. lia.
  - exists left. assert (alloc = 0%N) as ->.
    { unfold ReadStreamWithBuffer in Hr. set (r0 := Reader [] frags) in *.
      pose proof (read_full_spec (fuel_for r0) LengthHeader r0) as H1.
      destruct (read_full (fuel_for r0) LengthHeader r0) as [[head|] r1]; [|injection Hr; auto].
      destruct H1 as [H1 H2]; [unfold fuel_for; cbn; lia|]. change (content r0) with (concat frags) in H1.
      rewrite Hc in H1.
      apply app_inj_1 in H1 as [<- _]; [|rewrite (header_length _ _ Hh), H2; reflexivity].
      rewrite <- (app_nil_r h), (get_header _ _ [] Hh) in Hr.
      destruct (N.ltb_spec MaxPayload n); [injection Hr; auto|]. unfold limit, MaxPayload in *. lia. }
    split; [reflexivity|]. apply C12_limit in Hr as (_ & _ & Hr). lia.
Qed.
Print Assumptions C12_oversized_refused.
Example C12_example :
  header_of 20000001 (put_uint32 20000001) /\ (limit < 20000001)%N /\
  ReadStreamWithBuffer [put_uint32 20000001 ++ to_bytes "x"] = (None, [], 0%N).
Proof.
  split; [|split; [reflexivity|vm_compute; reflexivity]].
  eexists _, _, _, _. split; [reflexivity|vm_compute; reflexivity].
Qed.

(** ** C13 *)
Theorem C13_truncated_refused :
  forall msg f p q frags,
    frame msg f -> f = p ++ q -> q <> [] -> concat frags = p ->
    exists left alloc, ReadStreamWithBuffer frags = (None, left, alloc).
Proof.
  intros msg f p q frags (h & Hh & ->) Hf Hq Hc. pose proof (read_spec frags) as H.
  destruct (ReadStreamWithBuffer frags) as [[[m|] left] alloc]; [|eauto].
  exfalso. destruct H as ((h' & rest' & He & Hh') & Hl & _). rewrite <- Hc, He in Hf.
  rewrite <- !app_assoc in Hf.
  apply app_inj_1 in Hf as [<- Hf]; [|rewrite (header_length _ _ Hh), (header_length _ _ Hh'); reflexivity].
  assert (Heq : N.of_nat (length msg) = N.of_nat (length m)).
  { rewrite <- (get_header _ _ [] Hh), <- (get_header _ _ [] Hh'). reflexivity. }
  apply (f_equal length) in Hf. rewrite !app_length in Hf. destruct q; [congruence|]. cbn in Hf. lia.
Qed.
Print Assumptions C13_truncated_refused.

Theorem C13_read_is_a_frame :
  forall frags msg left alloc,
    ReadStreamWithBuffer frags = (Some msg, left, alloc) ->
    exists f rest, frame msg f /\ concat frags = f ++ rest.
Proof.
  intros frags msg left alloc Hr. pose proof (read_spec frags) as H. rewrite Hr in H.
  destruct H as ((h & rest & He & Hh) & _). exists (h ++ msg), rest.
  split; [exists h; auto|]. rewrite <- app_assoc. exact He.
Qed.
Print Assumptions C13_read_is_a_frame.
Example C13_example :
  fst (fst (ReadStreamWithBuffer [put_uint32 5 ++ to_bytes "hell"])) = None /\
  frame (to_bytes "hello") ((put_uint32 5 ++ to_bytes "hell") ++ to_bytes "o").
Proof.
  split; [vm_compute; reflexivity|]. exists (put_uint32 5). split; [|reflexivity].
  eexists _, _, _, _. split; [reflexivity|vm_compute; reflexivity].
Qed.

(** ** C14 *)
(** A payload of 20,000,001 bytes is written without error and cannot be read; one
    of 2^32 + k bytes is read back as its first k bytes. *)
Theorem C14_written_but_unreadable_refuted :
  (exists msg w w', WriteStreamWithBuffer msg w = (true, w') /\ wr_out w = [] /\
     forall frags, concat frags = wr_out w' -> exists left alloc, ReadStreamWithBuffer frags = (None, left, alloc)) /\
  (forall msg k w w', N.of_nat (length msg) = (4294967296 + N.of_nat k)%N -> (N.of_nat k <= limit)%N ->
     WriteStreamWithBuffer msg w = (true, w') -> wr_out w = [] ->
     forall frags, concat frags = wr_out w' ->
       exists left alloc, ReadStreamWithBuffer frags = (Some (take k msg), left, alloc)).
Proof.
  split.
  - assert (Hex : forall n, exists msg : bytes, N.of_nat (length msg) = n).
    { intros n. exists (repeat "a"%char (N.to_nat n)). rewrite repeat_length. apply N2Nat.id. }
    destruct (Hex 20000001%N) as [msg Hlen]. clear Hex.
    exists msg, (Writer [] (4 + length msg)).
    pose proof (write_spec msg (Writer [] (4 + length msg))) as H. cbn zeta in H.
    destruct (WriteStreamWithBuffer msg (Writer [] (4 + length msg))) as [ok w']. exists w'.
    destruct H as (Ho & _ & Hok).
    assert (ok = true) as -> by (apply Hok; rewrite app_length, put_uint32_length; cbn [wr_cap]; lia).
    split; [reflexivity|]. split; [reflexivity|]. specialize (Ho eq_refl). cbn [wr_out app] in Ho.
    rewrite Hlen in Ho. intros frags Hc. rewrite Ho in Hc.
    edestruct (C12_oversized_refused frags 20000001) as (left & Hr & _);
      [apply put_header; reflexivity|exact Hc|reflexivity|]. eauto.
  - intros msg k w w' Hlen Hk Hw Hemp frags Hc. pose proof (write_spec msg w) as H. cbn zeta in H.
    rewrite Hw in H. destruct H as (Ho & _). specialize (Ho eq_refl). rewrite Hemp in Ho. cbn [app] in Ho.
    assert (Hm : (N.of_nat (length msg) mod 4294967296 = N.of_nat k)%N).
    { rewrite Hlen. replace (4294967296 + N.of_nat k)%N with (N.of_nat k + 1 * 4294967296)%N by lia.
      rewrite N.mod_add by discriminate. apply N.mod_small. unfold limit in Hk. lia. }
    rewrite Hm in Ho. rewrite Ho in Hc.
    assert (Htk : length (take k msg) = k) by (rewrite take_length; lia).
    edestruct (C11_read_back (take k msg) (put_uint32 (N.of_nat k) ++ take k msg) frags (drop k msg)) as [left Hr].
    + rewrite Htk. exact Hk.
    + exists (put_uint32 (N.of_nat k)). rewrite Htk. split; [|reflexivity]. apply put_header. unfold limit in Hk. lia.
    + rewrite Hc, <- app_assoc, take_drop. reflexivity.
    + eauto.
Qed.
Print Assumptions C14_written_but_unreadable_refuted.
