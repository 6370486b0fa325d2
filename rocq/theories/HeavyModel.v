(** Model of heavyhash/heavyhash.go, heavyhash/matrix.go and heavyhash/client.go. *)
From Coq Require Import NArith ZArith List Bool.
From Coq Require Import Floats.SpecFloat.
From Verif Require Import Base CryptoModel.
Import ListNotations.
Open Scope N_scope.

(** heavyhash.go:11-14 *)
Definition size : N := 64.
Definition iterations : N := 16.

(** float64: IEEE 754 binary64 in the standard library's executable specification. *)
Definition float64 : Type := spec_float.
Definition fdiv : float64 -> float64 -> float64 := SFdiv 53 1024.
Definition fmul : float64 -> float64 -> float64 := SFmul 53 1024.
Definition fsub : float64 -> float64 -> float64 := SFsub 53 1024.
Definition of_uint16 (x : N) : float64 := binary_normalize 53 1024 (Z.of_N x) 0 false.

(** matrix.go:11-13: the binary64 nearest to 1e-9. *)
Definition epsilon : float64 := S754_finite false 4835703278458517 (-82).
(** [math.Abs(x) > epsilon] and [math.Abs(x) <= epsilon]: both false on NaN. *)
Definition above (x : float64) : bool := SFltb epsilon (SFabs x).
Definition below (x : float64) : bool := SFleb (SFabs x) epsilon.

(** matrix.go:15, a 64x64 array, as a list of rows. *)
Definition at2 {A} (m : list (list A)) (i j : N) : outcome A := r <- idx m i ;; idx r j.
Definition set2 {A} (m : list (list A)) (i j : N) (v : A) : outcome (list (list A)) :=
  r <- idx m i ;; r' <- upd r j v ;; upd m i r'.
Definition zero_matrix : list (list N) := repeat (zeros size) 64.

Section Arith.
(** [submul a b c] is [a - b * c].  Go may round the product or fuse both operations, depending on
    the architecture (specification of the Go language, "Floating-point operators"); nothing below
    depends on the choice. *)
Variable submul : float64 -> float64 -> float64 -> float64.

(** matrix.go:49-54, the search for a pivot in column [i]: 64 when there is none. *)
Definition findPivot (copied : list (list float64)) (rowsSelected : list bool) (i : N) : outcome N :=
  r <- for_break 64 0 (fun j _ =>
      sel <- idx rowsSelected j ;;
      if sel then Done (Continue tt)
      else x <- at2 copied j i ;; Done (if above x then Break j else Continue tt)) tt ;;
  Done (match r with inl j => j | inr _ => size end).

(** matrix.go:59-61 *)
Definition scaleRow (copied : list (list float64)) (i j : N) : outcome (list (list float64)) :=
  for_up (N.to_nat (size - (i + 1))) (i + 1) (fun k copied =>
    a <- at2 copied j k ;; b <- at2 copied j i ;; set2 copied j k (fdiv a b)) copied.

(** matrix.go:63-71 *)
Definition eliminate (copied : list (list float64)) (i j : N) : outcome (list (list float64)) :=
  for_n size (fun k copied =>
    if k =? j then Done copied
    else
      x <- at2 copied k i ;;
      if below x then Done copied
      else for_up (N.to_nat (size - (i + 1))) (i + 1) (fun l copied =>
        a <- at2 copied k l ;; b <- at2 copied j l ;; c <- at2 copied k i ;;
        set2 copied k l (submul a b c)) copied) copied.

(** matrix.go:36-76 *)
Definition calculateRank (mat : list (list N)) : outcome N :=
  let copied := map (map of_uint16) mat in
  ' (_, _, rank) <- for_n size (fun i '(copied, rowsSelected, rank) =>
      j <- findPivot copied rowsSelected i ;;
      if j =? size then Done (copied, rowsSelected, rank)
      else
        rowsSelected <- upd rowsSelected j true ;;
        copied <- scaleRow copied i j ;;
        copied <- eliminate copied i j ;;
        Done (copied, rowsSelected, rank + 1)) (copied, repeat false 64, 0) ;;
  Done rank.

(** matrix.go:22-29, one row: four outputs of the generator, sixteen 4-bit entries from each. *)
Definition fillRow (h : xoshiro) (row : list N) : outcome (xoshiro * list N) :=
  for_n 4 (fun q '(h, row) =>
    let j := q * iterations in
    let (value, h') := Next h in
    row' <- for_n iterations (fun k row => upd row (j + k) (u16 (N.land (N.shiftr value (4 * k)) 15))) row ;;
    Done (h', row')) (h, row).
(** matrix.go:21-30 *)
Definition fillMatrix (h : xoshiro) (mat : list (list N)) : outcome (xoshiro * list (list N)) :=
  for_n size (fun i '(h, mat) =>
    row <- idx mat i ;;
    ' (h', row') <- fillRow h row ;;
    mat' <- upd mat i row' ;;
    Done (h', mat')) (h, mat).
(** matrix.go:17-34 *)
Definition newMatrix (fuel : nat) (s0 s1 s2 s3 : N) : outcome (list (list N)) :=
  loop_fuel fuel (fun '(h, mat) =>
    r <- calculateRank mat ;;
    if r =? size then Done (Break mat)
    else s <- fillMatrix h mat ;; Done (Continue s)) (mkX s0 s1 s2 s3, zero_matrix).

(** crypto.CShake256 (internal/crypto/shakehash.go:7-14): data, customisation string. *)
Variable cshake : list N -> list N -> list N.
(** []byte("ProofOfWorkHash"), []byte("HeavyHash") *)
Definition pow_name : list N := [80;114;111;111;102;79;102;87;111;114;107;72;97;115;104].
Definition heavy_name : list N := [72;101;97;118;121;72;97;115;104].

(** heavyhash.go:35-39 *)
Definition vector (header : list N) : outcome (list N) :=
  for_n (size / 2) (fun i v =>
    b <- idx header i ;;
    v <- upd v (i * 2) (u16 (N.shiftr b 4)) ;;
    upd v (i * 2 + 1) (u16 (N.land b 15))) (zeros size).
(** heavyhash.go:41-48 *)
Definition product (mat : list (list N)) (v : list N) : outcome (list N) :=
  for_n size (fun i p =>
    s <- for_n size (fun j s =>
        a <- at2 mat i j ;; b <- idx v j ;; Done (addw 16 s (mulw 16 a b))) 0 ;;
    upd p i (N.shiftr s 10)) (zeros size).
(** heavyhash.go:50-54 *)
Definition mixDigest (header p : list N) : outcome (list N) :=
  for_n 32 (fun i digest =>
    b <- idx header i ;;
    x <- idx p (i * 2) ;;
    y <- idx p (i * 2 + 1) ;;
    upd digest i (N.lxor b (N.lor (u8 (shlw 16 x 4)) (u8 y)))) (zeros 32).
(** heavyhash.go:58-60, swapping from both ends. *)
Definition reverse (l : list N) : outcome (list N) :=
  for_n (lenN l / 2) (fun i l =>
    let j := lenN l - 1 - i in
    a <- idx l i ;; b <- idx l j ;;
    l <- upd l i b ;; upd l j a) l.

(** heavyhash.go:25-30: hash, timestamp, 32 zero bytes, nonce. *)
Definition buildHeader (hash : list N) (timestamp : Z) (nonce : N) : outcome (list N) :=
  let header := zeros (32 + 8 + 32 + 8) in
  let header := overwrite header 0 hash in
  t <- slice header 32 40 ;; t <- put_uint64 LittleEndian t (Z.to_N (timestamp mod 2 ^ 64)) ;;
  header <- copy_at header 32 t ;;
  n <- slice header 72 80 ;; n <- put_uint64 LittleEndian n nonce ;;
  header <- copy_at header 72 n ;;
  Done header.
(** heavyhash.go:16-63 *)
Definition heavyHash (fuel : nat) (hash : list N) (timestamp : Z) (nonce : N) : outcome (list N) :=
  b0 <- slice hash 0 8 ;; s0 <- le_u64 b0 ;;
  b1 <- slice hash 8 16 ;; s1 <- le_u64 b1 ;;
  b2 <- slice hash 16 24 ;; s2 <- le_u64 b2 ;;
  b3 <- slice hash 24 32 ;; s3 <- le_u64 b3 ;;
  mat <- newMatrix fuel s0 s1 s2 s3 ;;
  header <- buildHeader hash timestamp nonce ;;
  let header := cshake header pow_name in
  v <- vector header ;;
  p <- product mat v ;;
  digest <- mixDigest header p ;;
  reverse (cshake digest heavy_name).

(** client.go:19-27; [None] is the error. *)
Definition Compute (fuel : nat) (hash : list N) (timestamp : Z) (nonce : N) : outcome (option (list N)) :=
  if negb (lenN hash =? 32) then Done None
  else d <- heavyHash fuel hash timestamp nonce ;; Done (Some d).
End Arith.
