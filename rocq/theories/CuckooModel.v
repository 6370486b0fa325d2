(** Model of package cuckoo (client.go, cuckoo.go, cuckaroo.go, errors.go). *)
From Coq Require Import NArith ZArith List Bool.
From Verif Require Import Base CryptoModel.
Import ListNotations.
Open Scope N_scope.

(** errors.go:7-14 and the two fmt.Errorf of client.go (61, 79). *)
Inductive cuckoo_err :=
| ErrSolsLength | ErrUnsupported
| ErrPowTooBig | ErrPowTooSmall | ErrPowNotMatching
| ErrPowBranch | ErrPowDeadEnd | ErrPowShortCycle.

(** client.go:10-19 *)
Inductive variant := Cuckoo | Cuckatoo | Cuckaroo | Cuckarood | Cuckaroom | Cuckarooz.

(** client.go:21-28.  A nil Go function value is [None]; calling it panics.  The Go functions
    of type SipNodeFunc/SipBlockFunc may themselves panic, hence the [outcome]. *)
Record client := mkClient {
  c_variant : variant;
  c_proofSize : Z;
  c_edgeMask : N;
  c_sipnode : option (N -> sip -> N -> N -> outcome N);
  c_sipblock : option (sip -> N -> outcome N)
}.

(** client.go:30-41, newClient.  [uint64(1) << edgeBits] panics for a negative count and is 0
    from 64 on; the subtraction wraps.  The field edgeBits is never read again and is left out. *)
Definition newClient (v : variant) (edgeBits proofSize : Z)
    (node : option (N -> sip -> N -> N -> outcome N))
    (block : option (sip -> N -> outcome N)) : outcome client :=
  if (edgeBits <? 0)%Z then Panic
  else Done (mkClient v proofSize (subw 64 (shlw 64 1 (Z.to_N edgeBits)) 1) node block).

(** client.go:43-45, 51-53 *)
Definition NewCuckoo := newClient Cuckoo.
Definition NewCuckaroo := newClient Cuckaroo.
(** client.go:47-49 *)
Definition NewAeternity : outcome client :=
  NewCuckoo 29 42 (Some (fun m k e s => Done (SipNode24Legacy m k e s))) None.
(** client.go:55-57 *)
Definition NewCortex : outcome client :=
  NewCuckaroo 30 42 None (Some SipBlock48).

Definition call_node (f : option (N -> sip -> N -> N -> outcome N)) (m : N) (k : sip) (e s : N)
  : outcome N := match f with Some g => g m k e s | None => Panic end.
Definition call_block (f : option (sip -> N -> outcome N)) (k : sip) (e : N)
  : outcome N := match f with Some g => g k e | None => Panic end.

(** cuckoo.go:6-21: endpoints and their running xors; [P] is proofSize (non-negative here because
    Verify has compared it with a length).  The state is (uvs, xor0, xor1). *)
Definition cuckoo_fill (c : client) (P : N) (keys : sip) (edges : list N)
  : outcome (cuckoo_err + (list N * N * N)) :=
  for_break (N.to_nat P) 0 (fun n '(uvs, xor0, xor1) =>
    e <- idx edges n ;;
    if c_edgeMask c <? e then Done (Break ErrPowTooBig)
    else
      small <- (if n <? 0 then prev <- idx edges (n - 1) ;; Done (e <=? prev) else Done false) ;;
      if (small : bool) then Done (Break ErrPowTooSmall)
      else
        u <- call_node (c_sipnode c) (c_edgeMask c) keys e 0 ;;
        uvs <- upd uvs (2 * n) u ;;
        v <- call_node (c_sipnode c) (c_edgeMask c) keys e 1 ;;
        uvs <- upd uvs (2 * n + 1) v ;;
        Done (Continue (uvs, N.lxor xor0 u, N.lxor xor1 v)))
    (zeros (2 * P), 0, 0).

(** cuckaroo.go:6-21 *)
Definition cuckaroo_fill (c : client) (P : N) (keys : sip) (edges : list N)
  : outcome (cuckoo_err + (list N * N * N)) :=
  for_break (N.to_nat P) 0 (fun n '(uvs, xor0, xor1) =>
    e <- idx edges n ;;
    if c_edgeMask c <? e then Done (Break ErrPowTooBig)
    else
      small <- (if n <? 0 then prev <- idx edges (n - 1) ;; Done (e <=? prev) else Done false) ;;
      if (small : bool) then Done (Break ErrPowTooSmall)
      else
        edge <- call_block (c_sipblock c) keys e ;;
        let u := N.land edge (c_edgeMask c) in
        uvs <- upd uvs (2 * n) u ;;
        let v := N.land (N.shiftr edge 32) (c_edgeMask c) in
        uvs <- upd uvs (2 * n + 1) v ;;
        Done (Continue (uvs, N.lxor xor0 u, N.lxor xor1 v)))
    (zeros (2 * P), 0, 0).

(** cuckoo.go:29-45 = cuckaroo.go:29-45, the search for the matching endpoint. *)
Definition find_match (fuel : nat) (uvs : list N) (P i : N) : outcome (cuckoo_err + N) :=
  loop_fuel fuel (fun '(j, k) =>
    k <- modc (k + 2) (2 * P) ;;
    if k =? i then Done (Break (inr j))
    else
      a <- idx uvs k ;;
      b <- idx uvs i ;;
      if a =? b then
        if negb (j =? i) then Done (Break (inl ErrPowBranch)) else Done (Continue (k, k))
      else Done (Continue (j, k))) (i, i).

(** cuckoo.go:27-57 = cuckaroo.go:27-57, the walk; returns the number of steps. *)
Definition walk (fuel : nat) (uvs : list N) (P : N) : outcome (cuckoo_err + N) :=
  loop_fuel fuel (fun '(i, n) =>
    r <- find_match fuel uvs P i ;;
    match r with
    | inl e => Done (Break (inl e))
    | inr j =>
        if j =? i then Done (Break (inl ErrPowDeadEnd))
        else
          let i := N.lxor j 1 in
          let n := n + 1 in
          if i =? 0 then Done (Break (inr n)) else Done (Continue (i, n))
    end) (0, 0).

(** cuckoo.go:23-25, 59-63 = cuckaroo.go:23-25, 59-63: what both functions do after the fill.
    A Go result (bool, error) is a pair with [None] for a nil error. *)
Definition finish (fuel : nat) (P : N) (filled : cuckoo_err + (list N * N * N))
  : outcome (bool * option cuckoo_err) :=
  match filled with
  | inl e => Done (false, Some e)
  | inr (uvs, xor0, xor1) =>
      if negb (N.lor xor0 xor1 =? 0) then Done (false, Some ErrPowNotMatching)
      else
        r <- walk fuel uvs P ;;
        match r with
        | inl e => Done (false, Some e)
        | inr n => if negb (n =? P) then Done (false, Some ErrPowShortCycle) else Done (true, None)
        end
  end.

(** cuckoo.go:5-64 *)
Definition cuckoo (fuel : nat) (c : client) (keys : sip) (edges : list N)
  : outcome (bool * option cuckoo_err) :=
  f <- cuckoo_fill c (Z.to_N (c_proofSize c)) keys edges ;;
  finish fuel (Z.to_N (c_proofSize c)) f.
(** cuckaroo.go:5-64 *)
Definition cuckaroo (fuel : nat) (c : client) (keys : sip) (edges : list N)
  : outcome (bool * option cuckoo_err) :=
  f <- cuckaroo_fill c (Z.to_N (c_proofSize c)) keys edges ;;
  finish fuel (Z.to_N (c_proofSize c)) f.

(** client.go:59-81, Verify.  [blake2b256] is crypto.Blake2b256. *)
Definition Verify (blake2b256 : list N -> list N) (fuel : nat) (c : client)
    (header sols : list N) : outcome (bool * option cuckoo_err) :=
  if negb (Z.of_N (lenN sols) =? c_proofSize c)%Z then Done (false, Some ErrSolsLength)
  else
    let hash := blake2b256 header in
    a <- (s <- slice hash 0 8 ;; le_u64 s) ;;
    b <- (s <- slice hash 8 16 ;; le_u64 s) ;;
    d <- (s <- slice hash 16 24 ;; le_u64 s) ;;
    e <- (s <- slice hash 24 32 ;; le_u64 s) ;;
    let keys := mkSip a b d e in
    match c_variant c with
    | Cuckoo => cuckoo fuel c keys sols
    | Cuckaroo => cuckaroo fuel c keys sols
    | _ => Done (false, Some ErrUnsupported)
    end.
