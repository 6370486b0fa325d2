(** Cuckoo and Cuckaroo as programs on memory (MemModel.v): the same code as CuckooModel.v. *)
From Coq Require Import NArith ZArith List Bool.
From Verif Require Import Base CryptoModel CuckooModel MemModel.
Import ListNotations.
Open Scope N_scope.

(** cuckoo.go:9-21; the running xors are variables, uvs is the array made in line 6. *)
Definition p_cuckoo_fill (c : client) (P : N) (keys : sip) (edges uvs : sl) : prog (cuckoo_err + (N * N)) :=
  pfor_break (N.to_nat P) 0 (fun n '(xor0, xor1) =>
    e <~ get edges n ;;
    if c_edgeMask c <? e then Ret (Break ErrPowTooBig)
    else
      small <~ (if n <? 0 then prev <~ get edges (n - 1) ;; Ret (e <=? prev) else Ret false) ;;
      if (small : bool) then Ret (Break ErrPowTooSmall)
      else
        u <~ pure (call_node (c_sipnode c) (c_edgeMask c) keys e 0) ;;
        _ <~ set uvs (2 * n) u ;;
        v <~ pure (call_node (c_sipnode c) (c_edgeMask c) keys e 1) ;;
        _ <~ set uvs (2 * n + 1) v ;;
        Ret (Continue (N.lxor xor0 u, N.lxor xor1 v)))
    (0, 0).
(** cuckaroo.go:9-21 *)
Definition p_cuckaroo_fill (c : client) (P : N) (keys : sip) (edges uvs : sl) : prog (cuckoo_err + (N * N)) :=
  pfor_break (N.to_nat P) 0 (fun n '(xor0, xor1) =>
    e <~ get edges n ;;
    if c_edgeMask c <? e then Ret (Break ErrPowTooBig)
    else
      small <~ (if n <? 0 then prev <~ get edges (n - 1) ;; Ret (e <=? prev) else Ret false) ;;
      if (small : bool) then Ret (Break ErrPowTooSmall)
      else
        edge <~ pure (call_block (c_sipblock c) keys e) ;;
        let u := N.land edge (c_edgeMask c) in
        _ <~ set uvs (2 * n) u ;;
        let v := N.land (N.shiftr edge 32) (c_edgeMask c) in
        _ <~ set uvs (2 * n + 1) v ;;
        Ret (Continue (N.lxor xor0 u, N.lxor xor1 v)))
    (0, 0).
(** cuckoo.go:29-45 = cuckaroo.go:29-45 *)
Definition p_find_match (fuel : nat) (uvs : sl) (P i : N) : prog (cuckoo_err + N) :=
  ploop fuel (fun '(j, k) =>
    k <~ pure (modc (k + 2) (2 * P)) ;;
    if k =? i then Ret (Break (inr j))
    else
      a <~ get uvs k ;;
      b <~ get uvs i ;;
      if a =? b then
        if negb (j =? i) then Ret (Break (inl ErrPowBranch)) else Ret (Continue (k, k))
      else Ret (Continue (j, k))) (i, i).
(** cuckoo.go:27-57 = cuckaroo.go:27-57 *)
Definition p_walk (fuel : nat) (uvs : sl) (P : N) : prog (cuckoo_err + N) :=
  ploop fuel (fun '(i, n) =>
    r <~ p_find_match fuel uvs P i ;;
    match r with
    | inl e => Ret (Break (inl e))
    | inr j =>
        if j =? i then Ret (Break (inl ErrPowDeadEnd))
        else
          let i := N.lxor j 1 in
          let n := n + 1 in
          if i =? 0 then Ret (Break (inr n)) else Ret (Continue (i, n))
    end) (0, 0).
(** cuckoo.go:23-25, 59-63 = cuckaroo.go:23-25, 59-63 *)
Definition p_finish (fuel : nat) (P : N) (uvs : sl) (filled : cuckoo_err + (N * N)) : prog (bool * option cuckoo_err) :=
  match filled with
  | inl e => Ret (false, Some e)
  | inr (xor0, xor1) =>
      if negb (N.lor xor0 xor1 =? 0) then Ret (false, Some ErrPowNotMatching)
      else
        r <~ p_walk fuel uvs P ;;
        match r with
        | inl e => Ret (false, Some e)
        | inr n => if negb (n =? P) then Ret (false, Some ErrPowShortCycle) else Ret (true, None)
        end
  end.
(** cuckoo.go:5-64 and cuckaroo.go:5-64 *)
Definition p_cuckoo (fuel : nat) (c : client) (keys : sip) (edges : sl) : prog (bool * option cuckoo_err) :=
  uvs <~ make (2 * Z.to_N (c_proofSize c)) ;;
  f <~ p_cuckoo_fill c (Z.to_N (c_proofSize c)) keys edges uvs ;;
  p_finish fuel (Z.to_N (c_proofSize c)) uvs f.
Definition p_cuckaroo (fuel : nat) (c : client) (keys : sip) (edges : sl) : prog (bool * option cuckoo_err) :=
  uvs <~ make (2 * Z.to_N (c_proofSize c)) ;;
  f <~ p_cuckaroo_fill c (Z.to_N (c_proofSize c)) keys edges uvs ;;
  p_finish fuel (Z.to_N (c_proofSize c)) uvs f.
(** client.go:59-81 *)
Definition p_Verify (blake2b256 : list N -> list N) (fuel : nat) (c : client) (header sols : sl) : prog (bool * option cuckoo_err) :=
  if negb (Z.of_N (s_len sols) =? c_proofSize c)%Z then Ret (false, Some ErrSolsLength)
  else
    hash <~ hash_new blake2b256 32 header ;;
    a <~ (s <~ cut_at hash 0 8 ;; get64 LittleEndian s) ;;
    b <~ (s <~ cut_at hash 8 16 ;; get64 LittleEndian s) ;;
    d <~ (s <~ cut_at hash 16 24 ;; get64 LittleEndian s) ;;
    e <~ (s <~ cut_at hash 24 32 ;; get64 LittleEndian s) ;;
    let keys := mkSip a b d e in
    match c_variant c with
    | Cuckoo => p_cuckoo fuel c keys sols
    | Cuckaroo => p_cuckaroo fuel c keys sols
    | _ => Ret (false, Some ErrUnsupported)
    end.
