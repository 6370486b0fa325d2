(** Model of equihash/equihash.go with the errors told apart: which text a rejection carries.  EquiModel.v has the
    same code with one error; [verifyE] below differs from its [verify] in nothing else (see C76_same_verdicts). *)
From Coq Require Import NArith List Bool.
From Verif Require Import Base CryptoModel EquiModel.
Import ListNotations.
Open Scope N_scope.

(** The error texts of equihash.go. *)
Inductive verr :=
| TooNarrow      (* :41 "bitLen must be no less than 8" *)
| TooWide        (* :43 "bitLen must be no greater than 25" *)
| BadMinimal     (* :82 "invalid minimal for parameters" *)
| BadParameters  (* :84 "invalid n, k parameters" *)
| Collision      (* :177 "collision" *)
| OutOfOrder     (* :183 "out of order" *)
| Duplicate.     (* :190 "duplicate indices" *)

(** [x, err := m; if err != nil { return err }] *)
Notation "x <-! m ;; k" := (bind m (fun o => match o with inr x => k | inl e => Done (inl e) end))
  (at level 61, m at next level, right associativity).

(** equihash.go:39-75; the output is that of EquiModel.expandArray. *)
Definition expandArrayE (input : list N) (bitLen bytePad : N) : outcome (verr + list N) :=
  if bitLen <? 8 then Done (inl TooNarrow)
  else if 32 <? bitLen then Done (inl TooWide)
  else o <- expandArray input bitLen bytePad ;;
       Done (match o with Some l => inr l | None => inl TooWide (* not reached *) end).
(** equihash.go:77-94 *)
Definition indicesFromMinimalE (n k : N) (minimal : list N) : outcome (verr + list N) :=
  cBitLen <- collisionBitLength n k ;;
  let minimalLen := u32 (lenN minimal) in
  if negb (minimalLen =? mulw 32 (shlw 32 1 k) (addw 32 cBitLen 1) / 8) then Done (inl BadMinimal)
  else if 4 <? addw 32 (addw 32 cBitLen 1) 7 / 8 then Done (inl BadParameters)
  else
    let bytePad := subw 32 4 (addw 32 (addw 32 cBitLen 1) 7 / 8) in
    indices <-! expandArrayE minimal (addw 32 cBitLen 1) bytePad ;;
    a <- BytesToUint32Array indices BigEndian ;;
    Done (inr a).
(** equihash.go:131-147 *)
Definition newNodeE blake spare fuel (n k : N) (personalState : list N) (twist : bool) (state : list N) (i : N)
  : outcome (verr + node) :=
  per <- indicesPerHashOutput n ;;
  g <- divc i per ;;
  len <- hashOutput n ;;
  hash <- generateHash blake spare fuel state personalState g len twist ;;
  r <- modc i per ;;
  let start := mulw 32 r (addw 32 n 7 / 8) in
  let fin := addw 32 start (addw 32 n 7 / 8) in
  s <- slice hash start fin ;;
  c <- collisionBitLength n k ;;
  minimalHash <-! expandArrayE s c 0 ;;
  Done (inr (mkNode minimalHash [i])).
(** equihash.go:173-196; [None] for no error. *)
Definition validateSubtreesE (n k : N) (a b : node) : outcome (option verr) :=
  len <- collisionByteLength n k ;;
  collides <- hasCollision len a b ;;
  match collides with
  | None => Done (Some Collision)
  | Some _ =>
      b0 <- idx (n_indices b) 0 ;; a0 <- idx (n_indices a) 0 ;;
      if b0 <? a0 then Done (Some OutOfOrder)
      else if distinctIndices (n_indices a) (n_indices b) then Done None else Done (Some Duplicate)
  end.
(** equihash.go:209-215 *)
Fixpoint newNodesE blake spare fuel (n k : N) (personalState : list N) (twist : bool) (header : list N) (indices : list N)
  : outcome (verr + list node) :=
  match indices with
  | [] => Done (inr [])
  | i :: t =>
      x <-! newNodeE blake spare fuel n k personalState twist header i ;;
      l <-! newNodesE blake spare fuel n k personalState twist header t ;;
      Done (inr (x :: l))
  end.
(** equihash.go:218-229 *)
Fixpoint nextRowsE (n k : N) (rows : list node) : outcome (verr + list node) :=
  match rows with
  | [] => Done (inr [])
  | [_] => Panic
  | a :: b :: t =>
      err <- validateSubtreesE n k a b ;;
      match err with
      | Some e => Done (inl e)
      | None =>
          trim <- collisionByteLength n k ;;
          row <- newNodeFromChildrenRef a b trim ;;
          l <-! nextRowsE n k t ;;
          Done (inr (row :: l))
      end
  end.
(** equihash.go:217-230 *)
Fixpoint reduceRowsE (fuel : nat) (n k : N) (rows : list node) : outcome (verr + list node) :=
  match rows, fuel with
  | _ :: _ :: _, O => OutOfFuel
  | _ :: _ :: _, S f => l <-! nextRowsE n k rows ;; reduceRowsE f n k l
  | _, _ => Done (inr rows)
  end.
(** equihash.go:198-239 *)
Definition verifyE blake spare (fuel : nat) (n k : N) (personal header soln : list N) (twist : bool)
  : outcome (verr + bool) :=
  let personalState := personal ++ le_bytes 4 n ++ le_bytes 4 k in
  indices <-! indicesFromMinimalE n k soln ;;
  rows <-! newNodesE blake spare fuel n k personalState twist header indices ;;
  rows <-! reduceRowsE (length rows) n k rows ;;
  r <- idx rows 0 ;;
  Done (inr (forallb (fun v => v =? 0) (n_hash r))).
(** client.go:41-43 *)
Definition VerifyE blake spare fuel (c : client) (header soln : list N) : outcome (verr + bool) :=
  verifyE blake spare fuel (c_n c) (c_k c) (c_personal c) header soln (c_twist c).
