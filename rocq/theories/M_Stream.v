(** Model of the stream framing, p2p/stream_helper.go:76-134.

    The transport delivers the bytes in fragments; a Read returns at most one
    fragment and leaves the rest of it. bufio.Reader and bufio.Writer (Go standard
    library, buffer of 4096 bytes) and io.ReadFull are modelled. When the fragments
    are used up, a Read fails (end of stream, reset or deadline). The deadlines
    themselves are not modelled. *)
From Coq Require Import ZArith NArith Ascii String List.
From stdpp Require Import base list strings.
From Verif Require Import Base.

(** p2p/stream_helper.go:15-20 *)
Definition LengthHeader : nat := 4.
Definition MaxPayload : N := 20000000.
(** bufio's default buffer size *)
Definition bufsize : nat := 4096.

(** binary.LittleEndian.PutUint32 and Uint32 *)
Definition put_uint32 (n : N) : bytes :=
  [ascii_of_N (n mod 256); ascii_of_N (n / 256 mod 256);
   ascii_of_N (n / 65536 mod 256); ascii_of_N (n / 16777216 mod 256)].
Definition get_uint32 (b : bytes) : N :=
  match b with
  | b0 :: b1 :: b2 :: b3 :: _ =>
      byte_val b0 + 256 * byte_val b1 + 65536 * byte_val b2 + 16777216 * byte_val b3
  | _ => 0
  end.

(** ** Reading *)

(** A transport and what bufio has buffered of it. *)
Record reader := Reader { rd_buf : bytes; rd_frags : list bytes }.

(** One Read of at most [n] bytes from the transport; [None] is an error. *)
Definition transport_read (n : nat) (frags : list bytes) : option (bytes * list bytes) :=
  match frags with
  | [] => None
  | f :: rest =>
      if Nat.leb (length f) n then Some (f, rest)
      else Some (take n f, drop n f :: rest)
  end.

(** bufio.Reader.Read for a destination of [n] > 0 bytes: buffered bytes first;
    else a large destination is filled directly, a small one through the buffer. *)
Definition bufio_read (n : nat) (r : reader) : option (bytes * reader) :=
  match rd_buf r with
  | _ :: _ => Some (take n (rd_buf r), Reader (drop n (rd_buf r)) (rd_frags r))
  | [] =>
      if Nat.leb bufsize n then
        match transport_read n (rd_frags r) with
        | None => None
        | Some (b, fs) => Some (b, Reader [] fs)
        end
      else
        match transport_read bufsize (rd_frags r) with
        | None => None
        | Some (b, fs) => Some (take n b, Reader (drop n b) fs)
        end
  end.

(** io.ReadFull: reads until [n] bytes are there or a Read fails. The fuel bounds
    the number of Reads. *)
Fixpoint read_full (fuel n : nat) (r : reader) : option bytes * reader :=
  match n with
  | 0 => (Some [], r)
  | _ =>
      match fuel with
      | 0 => (None, r)
      | S fuel' =>
          match bufio_read n r with
          | None => (None, r)
          | Some (b, r') =>
              match read_full fuel' (n - length b) r' with
              | (Some rest, r'') => (Some (b ++ rest), r'')
              | (None, r'') => (None, r'')
              end
          end
      end
  end.

(** Enough Reads for everything: each one delivers a byte or uses up a fragment. *)
Definition fuel_for (r : reader) : nat :=
  S (length (rd_buf r) + length (concat (rd_frags r)) + length (rd_frags r)).

(** p2p/stream_helper.go:76-102 (ReadStreamWithBuffer); [None] is an error. The
    second result is what is left of the transport, the third the size of the
    payload buffer that was allocated. *)
Definition ReadStreamWithBuffer (frags : list bytes) : option bytes * list bytes * N :=
  let r0 := Reader [] frags in
  match read_full (fuel_for r0) LengthHeader r0 with
  | (None, r1) => (None, rd_frags r1, 0%N)
  | (Some head, r1) =>
      let length := get_uint32 head in
      if N.ltb MaxPayload length then (None, rd_frags r1, 0%N)
      else
        let '(body, r2) := read_full (fuel_for r1) (N.to_nat length) r1 in
        (body, rd_frags r2, length)
  end.

(** ** Writing *)

(** A transport that accepts [cap] more bytes and then fails; the first component
    is what it has accepted. *)
Record writer := Writer { wr_out : bytes; wr_cap : nat }.
Definition transport_write (b : bytes) (w : writer) : bool * writer :=
  if Nat.leb (length b) (wr_cap w)
  then (true, Writer (wr_out w ++ b) (wr_cap w - length b))
  else (false, Writer (wr_out w ++ take (wr_cap w) b) 0).

(** bufio.Writer.Write with [buf] buffered: fill and flush the buffer when the data
    does not fit; data that is still larger than the buffer is written directly. *)
Definition bufio_write (p buf : bytes) (w : writer) : bool * bytes * writer :=
  if Nat.leb (length p) (bufsize - length buf) then (true, buf ++ p, w)
  else
    let direct p w :=
      if Nat.leb (length p) bufsize then (true, p, w)
      else let '(ok, w') := transport_write p w in (ok, [], w') in
    match buf with
    | [] => direct p w
    | _ =>
        let k := bufsize - length buf in
        match transport_write (buf ++ take k p) w with
        | (false, w') => (false, [], w')
        | (true, w') => direct (drop k p) w'
        end
    end.

(** p2p/stream_helper.go:105-134 (WriteStreamWithBuffer); the number of bytes
    reported by a successful Write is len(msg), so the check at line 126 compares
    the length with itself. *)
Definition WriteStreamWithBuffer (msg : bytes) (w : writer) : bool * writer :=
  let len := (N.of_nat (length msg) mod 4294967296)%N in (* uint32(len(msg)) *)
  match bufio_write (put_uint32 len) [] w with
  | (false, _, w1) => (false, w1)
  | (true, buf1, w1) =>
      match bufio_write msg buf1 w1 with
      | (false, _, w2) => (false, w2)
      | (true, buf2, w2) => transport_write buf2 w2
      end
  end.
