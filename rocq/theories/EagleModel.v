(** Model of eaglesong/eaglesong.go, eaglesong/eaglesong_constants.go and eaglesong/client.go. *)
From Coq Require Import NArith List Bool.
From Verif Require Import Base EagleTables.
Import ListNotations.
Open Scope N_scope.

(** eaglesong.go:7-12, the product with the bit matrix into [temp]. *)
Definition bitStage (state : list N) : outcome (list N) :=
  for_n 16 (fun j temp =>
    for_n 16 (fun k temp =>
      t <- idx temp j ;; b <- idx bitMatrix (k * 16 + j) ;; s <- idx state k ;;
      upd temp j (N.lxor t (mulw 32 b s))) temp) (zeros 16).
(** eaglesong.go:14-16, copying [temp] to the state. *)
Definition copyStage (temp state : list N) : outcome (list N) :=
  for_n 16 (fun j state => t <- idx temp j ;; upd state j t) state.
(** eaglesong.go:18-25 *)
Definition circStage (state : list N) : outcome (list N) :=
  for_n 16 (fun j state =>
    value <- idx state j ;;
    c1 <- idx coefficients (3 * j + 1) ;;
    c2 <- idx coefficients (3 * j + 2) ;;
    let x := N.lxor value (shlw 32 value c1) in
    let x := N.lxor x (N.shiftr value (32 - c1)) in
    let x := N.lxor x (shlw 32 value c2) in
    let x := N.lxor x (N.shiftr value (32 - c2)) in
    upd state j x) state.
(** eaglesong.go:27-30 *)
Definition injectStage (i : N) (state : list N) : outcome (list N) :=
  for_n 16 (fun j state =>
    s <- idx state j ;; c <- idx injectionConstants (i * 16 + j) ;; upd state j (N.lxor s c)) state.
(** eaglesong.go:32-38; [h] is half of the loop variable. *)
Definition arxStage (state : list N) : outcome (list N) :=
  for_n 8 (fun h state =>
    let j := 2 * h in
    a <- idx state j ;; b <- idx state (j + 1) ;;
    let a := addw 32 a b in
    let a := N.lxor (shlw 32 a 8) (N.shiftr a 24) in
    let b := N.lxor (shlw 32 b 24) (N.shiftr b 8) in
    state <- upd state j a ;;
    upd state (j + 1) (addw 32 a b)) state.
(** eaglesong.go:5-40 *)
Definition permute (rounds : N) (state : list N) : outcome (list N) :=
  for_n rounds (fun i state =>
    temp <- bitStage state ;;
    state <- copyStage temp state ;;
    state <- circStage state ;;
    state <- injectStage i state ;;
    arxStage state) state.

(** eaglesong.go:47-55, word [j] of block [i]. *)
Definition absorbWord (rate delim : N) (input : list N) (i j : N) : outcome N :=
  for_n 4 (fun k integer =>
    let p := i * rate / 8 + j * 4 + k in
    if p <? lenN input then b <- idx input p ;; Done (N.lxor (shlw 32 integer 8) b)
    else if p =? lenN input then Done (N.lxor (shlw 32 integer 8) delim)
    else Done integer) 0.

(** eaglesong.go:42-78.  The integer parameters are natural numbers: negative ones are not modelled. *)
Definition eaglesong (rounds capacity rate delim : N) (input : list N) : outcome (list N) :=
  blocks <- divc ((lenN input + 1) * 8 + rate - 1) rate ;;
  state <- for_n blocks (fun i state =>
      state <- for_n (rate / 32) (fun j state =>
          integer <- absorbWord rate delim input i j ;;
          s <- idx state j ;;
          upd state j (N.lxor s integer)) state ;;
      permute rounds state) (zeros 16) ;;
  outs <- divc capacity (rate / 8) ;;
  ' (output, _) <- for_n outs (fun i '(output, state) =>
      output <- for_n (rate / 32) (fun j output =>
          for_n 4 (fun k output =>
            s <- idx state j ;;
            upd output (i * rate / 8 + j * 4 + k) (N.land (N.shiftr s (8 * k)) 255)) output) output ;;
      state <- permute rounds state ;;
      Done (output, state)) (zeros capacity, state) ;;
  Done output.

(** client.go:3-9, 11-21; the length is stored and never used. *)
Record client := mkClient { c_rounds : N; c_capacity : N; c_rate : N; c_length : N; c_delim : N }.
Definition New : N -> N -> N -> N -> N -> client := mkClient.
(** client.go:23-25 *)
Definition NewNervos : client := New 43 32 256 32 6.
(** client.go:27-29 *)
Definition Compute (c : client) (input : list N) : outcome (list N) :=
  eaglesong (c_rounds c) (c_capacity c) (c_rate c) (c_delim c) input.

(** eaglesong_constants.go:128-151; the third-party SHAKE256 is a parameter. *)
Definition generateInjectionConstants (shake256 : nat -> list N -> list N) (seed : list N) (numRounds : N)
  : outcome (list N) :=
  let numConstants := numRounds * 16 in
  let numBytes := numConstants * 4 in
  let hash := shake256 (N.to_nat numBytes) seed in
  for_n numConstants (fun i constants =>
    h0 <- idx hash (i * 4 + 0) ;; h1 <- idx hash (i * 4 + 1) ;;
    h2 <- idx hash (i * 4 + 2) ;; h3 <- idx hash (i * 4 + 3) ;;
    c <- idx constants i ;;
    let c := addw 32 c (mulw 32 1 h0) in
    let c := addw 32 c (mulw 32 256 h1) in
    let c := addw 32 c (mulw 32 65536 h2) in
    let c := addw 32 c (mulw 32 16777216 h3) in
    upd constants i c) (zeros numConstants).
