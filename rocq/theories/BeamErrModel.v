(** Model of beamhashiii/beamhashiii.go and client.go with the errors told apart.  BeamModel.v has the same code with one
    error; [BeamVerifyE] below differs from its [BeamVerify] in nothing else (see C77_same_verdicts). *)
From Coq Require Import NArith List Bool.
From Verif Require Import Base EquiModel EquiErrModel BeamModel.
Import ListNotations.
Open Scope N_scope.

(** The error texts of BeamHash III; those of validateSubtrees are the ones of Equihash. *)
Inductive berr :=
| BadHeader           (* client.go:29 "header must be 40 bytes" *)
| BadSolution         (* client.go:31 "soln must be 104 bytes" *)
| Siblings (e : verr). (* beamhashiii.go:110, 115, 122 *)

(** beamhashiii.go:103-128; [None] for no error. *)
Definition beamValidateE (a b : bnode) : outcome (option verr) :=
  if negb (N.land (b_bitset a) collisionMask =? N.land (b_bitset b) collisionMask) then Done (Some Collision)
  else
    b0 <- idx (b_indices b) 0 ;; a0 <- idx (b_indices a) 0 ;;
    if b0 <? a0 then Done (Some OutOfOrder)
    else if distinctIndices (b_indices a) (b_indices b) then Done None else Done (Some Duplicate).
(** beamhashiii.go:190-212, one round. *)
Fixpoint beamRoundE (round : N) (rows : list bnode) : outcome (verr + list bnode) :=
  match rows with
  | [] => Done (inr [])
  | [_] => Panic
  | a :: b :: t =>
      let remLen := subw 32 workBitsSize (mulw 32 (subw 32 round 1) collisionBitsSize) in
      let remLen := if round =? 5 then subw 32 remLen 64 else remLen in
      a <- applyMix a remLen ;;
      b <- applyMix b remLen ;;
      err <- beamValidateE a b ;;
      match err with
      | Some e => Done (inl e)
      | None =>
          let remLen := subw 32 workBitsSize (mulw 32 round collisionBitsSize) in
          let remLen := if round =? 4 then subw 32 remLen 64 else if round =? 5 then collisionBitsSize else remLen in
          row <- beamChild a b remLen ;;
          l <-! beamRoundE round t ;;
          Done (inr (row :: l))
      end
  end.
(** beamhashiii.go:187-216 *)
Fixpoint beamRoundsE (fuel : nat) (round : N) (rows : list bnode) : outcome (verr + list bnode) :=
  match rows, fuel with
  | _ :: _ :: _, O => OutOfFuel
  | _ :: _ :: _, S f => l <-! beamRoundE round rows ;; beamRoundsE f (addw 32 round 1) l
  | _, _ => Done (inr rows)
  end.
(** beamhashiii.go:179-223 *)
Definition beamVerifyE blake (personal header soln : list N) : outcome (verr + bool) :=
  prePow <- initializePrePow blake personal header soln ;;
  indices <- beamIndices soln ;;
  rows <- beamNodes prePow indices ;;
  rows <-! beamRoundsE (length rows) 1 rows ;;
  r <- idx rows 0 ;;
  Done (inr (b_bitset r =? 0)).
(** client.go:27-35 *)
Definition BeamVerifyE blake (c : beamClient) (header soln : list N) : outcome (berr + bool) :=
  if negb (lenN header =? 40) then Done (inl BadHeader)
  else if negb (lenN soln =? 104) then Done (inl BadSolution)
  else r <- beamVerifyE blake (bc_personal c) header soln ;;
       Done (match r with inl e => inl (Siblings e) | inr v => inr v end).
