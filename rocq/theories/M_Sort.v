(** Go's sort.SliceStable, function by function (package sort, file zfuncversion.go of
    Go 1.14-1.18: insertionSort_func, stable_func, symMerge_func, rotate_func,
    swapRange_func). The repository calls it with comparators that are not strict
    orders (tss/keysign.go:237-251, keysign/tss_keysign.go:163-171), so its
    documentation promises nothing and the algorithm itself has to be looked at.
    A slice of length [n] is a function on indices; the code never touches an index
    outside [0, n). Loops get fuel that suffices (L_Sort). *)
From Coq Require Import Arith List.
Import ListNotations.

Section Sort.
  Context {A : Type}.
  Variable less : A -> A -> bool.

  Definition arr := nat -> A.

  (** data.Swap(i, j) *)
  Definition swap (f : arr) (i j : nat) : arr :=
    fun k => if Nat.eqb k i then f j else if Nat.eqb k j then f i else f k.

  (** for j := i; j > a && data.Less(j, j-1); j-- { data.Swap(j, j-1) } *)
  Fixpoint insert_loop (j a : nat) (f : arr) : arr :=
    match j with
    | 0 => f
    | S j' =>
        if (Nat.ltb a (S j') && less (f (S j')) (f j'))%bool
        then insert_loop j' a (swap f (S j') j')
        else f
    end.

  (** insertionSort_func(data, a, b): for i := a + 1; i < b; i++; [k] iterations left *)
  Fixpoint insertion_loop (k i a : nat) (f : arr) : arr :=
    match k with
    | 0 => f
    | S k' => insertion_loop k' (S i) a (insert_loop i a f)
    end.
  Definition insertionSort (a b : nat) (f : arr) : arr := insertion_loop (b - S a) (S a) a f.

  (** swapRange_func(data, a, b, n): for i := 0; i < n; i++ { Swap(a+i, b+i) } *)
  Fixpoint swapRange (a b n : nat) (f : arr) : arr :=
    match n with
    | 0 => f
    | S n' => swapRange (S a) (S b) n' (swap f a b)
    end.

  (** The loop of rotate_func. *)
  Fixpoint rotate_loop (fuel m i j : nat) (f : arr) : arr :=
    match fuel with
    | 0 => f
    | S fuel' =>
        if Nat.eqb i j then swapRange (m - i) m i f
        else if Nat.ltb j i
          then rotate_loop fuel' m (i - j) j (swapRange (m - i) m j f)
          else rotate_loop fuel' m i (j - i) (swapRange (m - i) (m + j - i) i f)
    end.
  (** rotate_func(data, a, m, b) *)
  Definition rotate (a m b : nat) (f : arr) : arr :=
    rotate_loop (b - a) m (m - a) (b - m) f.

  (** The binary searches of symMerge_func: from [i] and [j] with the test that
      moves [i] up. *)
  Fixpoint bsearch (fuel : nat) (up : nat -> bool) (i j : nat) : nat :=
    match fuel with
    | 0 => i
    | S fuel' =>
        if Nat.ltb i j then
          let h := Nat.div2 (i + j) in
          if up h then bsearch fuel' up (S h) j else bsearch fuel' up i h
        else i
    end.

  (** for k := a; k < i-1; k++ { Swap(k, k+1) }; [n] iterations *)
  Fixpoint bubble_up (n k : nat) (f : arr) : arr :=
    match n with 0 => f | S n' => bubble_up n' (S k) (swap f k (S k)) end.
  (** for k := m; k > i; k-- { Swap(k, k-1) }; [n] iterations *)
  Fixpoint bubble_down (n k : nat) (f : arr) : arr :=
    match n with 0 => f | S n' => bubble_down n' (k - 1) (swap f k (k - 1)) end.

  (** symMerge_func(data, a, m, b) *)
  Fixpoint symMerge (fuel a m b : nat) (f : arr) : arr :=
    match fuel with
    | 0 => f
    | S fuel' =>
        if Nat.eqb (m - a) 1 then
          let i := bsearch (b - m) (fun h => less (f h) (f a)) m b in
          bubble_up (i - 1 - a) a f
        else if Nat.eqb (b - m) 1 then
          let i := bsearch (m - a) (fun h => negb (less (f m) (f h))) a m in
          bubble_down (m - i) m f
        else
          let mid := Nat.div2 (a + b) in
          let n := mid + m in
          let '(start0, r0) := if Nat.ltb mid m then (n - b, mid) else (a, m) in
          let p := n - 1 in
          let start := bsearch (r0 - start0) (fun c => negb (less (f (p - c)) (f c))) start0 r0 in
          let e := n - start in
          let f1 := if (Nat.ltb start m && Nat.ltb m e)%bool then rotate start m e f else f in
          let f2 := if (Nat.ltb a start && Nat.ltb start mid)%bool
            then symMerge fuel' a start mid f1 else f1 in
          if (Nat.ltb mid e && Nat.ltb e b)%bool then symMerge fuel' mid e b f2 else f2
    end.

  (** The first loop of stable_func: insertion sorts of blocks of [bs]. *)
  Fixpoint blocks (fuel bs a n : nat) (f : arr) : nat * arr :=
    match fuel with
    | 0 => (a, f)
    | S fuel' =>
        if Nat.leb (a + bs) n then blocks fuel' bs (a + bs) n (insertionSort a (a + bs) f)
        else (a, f)
    end.
  (** The inner loop of the second: merges of neighbouring blocks. *)
  Fixpoint merges (fuel bs a n : nat) (f : arr) : nat * arr :=
    match fuel with
    | 0 => (a, f)
    | S fuel' =>
        if Nat.leb (a + 2 * bs) n
        then merges fuel' bs (a + 2 * bs) n (symMerge (2 * bs) a (a + bs) (a + 2 * bs) f)
        else (a, f)
    end.
  Fixpoint passes (fuel bs n : nat) (f : arr) : arr :=
    match fuel with
    | 0 => f
    | S fuel' =>
        if Nat.ltb bs n then
          let '(a, f1) := merges n bs 0 n f in
          let f2 := if Nat.ltb (a + bs) n then symMerge (n - a) a (a + bs) n f1 else f1 in
          passes fuel' (2 * bs) n f2
        else f
    end.
  (** stable_func(data, n) *)
  Definition stable (n : nat) (f : arr) : arr :=
    let '(a, f1) := blocks n 20 0 n f in
    passes n 20 n (insertionSort a n f1).

  (** sort.SliceStable(x, less) as a function on the contents of x. *)
  Definition SliceStable (l : list A) : list A :=
    match l with
    | [] => []
    | d :: _ => map (stable (length l) (fun i => nth i l d)) (seq 0 (length l))
    end.
End Sort.
