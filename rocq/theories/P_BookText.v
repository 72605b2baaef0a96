(** C106: exactly which addresses are saved. *)
From Coq Require Import Ascii String List.
From stdpp Require Import base list strings gmap.
From Verif Require Import Base M_Storage S_Storage L_Storage P_Storage.

(** The text 127.0.0.1 stands somewhere in [a]. *)
Definition mentions_loopback (a : string) : Prop :=
  exists x y, a = String.append x (String.append "127.0.0.1" y).

Lemma lines_iff book l : book_lines book l -> forall line,
  line ∈ l <-> exists p addrs a, (p, addrs) ∈ book /\ a ∈ addrs /\ ~ mentions_loopback a /\
                                 line = String.append a (String.append "/p2p/" p).
Proof.
  induction 1 as [|p rest l _ IH|p a addrs rest l Hl _ IH|p a addrs rest l Hl _ IH]; intros line.
  - split; [intros X; inversion X|intros (p & addrs & a & X & _); inversion X].
  - rewrite IH. split; intros (q & ads & b & H1 & H2).
    + exists q, ads, b. split; [right; exact H1|exact H2].
    + apply elem_of_cons in H1 as [[= -> ->]|H1]; [destruct H2 as [X _]; inversion X|exists q, ads, b; auto].
  - rewrite IH. split; intros (q & ads & b & H1 & H2 & H3 & H4).
    + apply elem_of_cons in H1 as [[= -> ->]|H1].
      * exists p, (a :: addrs), b. split; [left|]. split; [right; exact H2|auto].
      * exists q, ads, b. split; [right; exact H1|auto].
    + apply elem_of_cons in H1 as [[= -> ->]|H1].
      * apply elem_of_cons in H2 as [->|H2]; [contradiction|]. exists p, addrs, b. split; [left|auto].
      * exists q, ads, b. split; [right; exact H1|auto].
  - rewrite elem_of_cons, IH. split.
    + intros [->|(q & ads & b & H1 & H2 & H3 & H4)].
      * exists p, (a :: addrs), a. split; [left|]. split; [left|auto].
      * apply elem_of_cons in H1 as [[= -> ->]|H1].
        -- exists p, (a :: addrs), b. split; [left|]. split; [right; exact H2|auto].
        -- exists q, ads, b. split; [right; exact H1|auto].
    + intros (q & ads & b & H1 & H2 & H3 & H4). apply elem_of_cons in H1 as [[= -> ->]|H1].
      * apply elem_of_cons in H2 as [->|H2]; [left; exact H4|]. right. exists p, addrs, b. split; [left|auto].
      * right. exists q, ads, b. split; [right; exact H1|auto].
Qed.

(** Of a book that was saved completely, the addresses whose text does not mention
    127.0.0.1 are read back, each with its peer, and nothing else. *)
Theorem C106_what_is_saved F fs book :
  fe_folder F <> ""%string -> one_line book ->
  exists l, RetrieveP2PAddresses F Some (fst (SaveAddressBook F book WDone fs)) = Some l /\
    forall line, line ∈ l <->
      exists p addrs a, (p, addrs) ∈ book /\ a ∈ addrs /\ ~ mentions_loopback a /\
                        line = String.append a (String.append "/p2p/" p).
Proof.
  intros Hf Ho. destruct (C54_lines_exist book) as (l & Hl & _).
  destruct (C54_round_trip F Some fs book l Hf Ho Hl) as [_ H]. exists l. split; [|apply lines_iff, Hl].
  rewrite H. clear. induction l as [|x l IH]; [reflexivity|]. cbn in *. rewrite IH. reflexivity.
Qed.
Print Assumptions C106_what_is_saved.

Example C106_what_is_saved_ex :
  fe_folder toy_fs <> ""%string /\ one_line toy_book /\
  mentions_loopback "/ip4/127.0.0.1/tcp/6668" /\ ("16Uiu2A"%string, snd (List.hd (""%string, []) toy_book)) ∈ toy_book.
Proof.
  split; [discriminate|]. split; [apply C54_round_trip_ex|]. split; [|left].
  exists "/ip4/"%string, "/tcp/6668"%string. reflexivity.
Qed.
