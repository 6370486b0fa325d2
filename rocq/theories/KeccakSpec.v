(** The Keccak-f permutation family, written from FIPS 202 (sections 3.2 and 3.3), independent of
    the Go code.  A state is a list of 25 lanes of [w] bits, lane (x,y) at position [x + 5y]. *)
From Coq Require Import NArith List Bool.
From Verif Require Import Base.
Import ListNotations.
Open Scope N_scope.

Definition lane (A : list N) (x y : N) : N :=
  nth (N.to_nat (x mod 5 + 5 * (y mod 5))) A 0.

Definition coords : list (N * N) :=
  flat_map (fun y => map (fun x => (x, y)) [0; 1; 2; 3; 4]) [0; 1; 2; 3; 4].

Definition from_lanes (f : N -> N -> N) : list N :=
  map (fun p => f (fst p) (snd p)) coords.

(** theta *)
Definition col (A : list N) (x : N) : N :=
  N.lxor (N.lxor (N.lxor (N.lxor (lane A x 0) (lane A x 1)) (lane A x 2)) (lane A x 3))
         (lane A x 4).
Definition theta (w : N) (A : list N) : list N :=
  let D x := N.lxor (col A (x + 4)) (rolw w (col A (x + 1)) 1) in
  from_lanes (fun x y => N.lxor (lane A x y) (D x)).

(** rho: offsets by the walk (x,y) := (1,0); (x,y) := (y, 2x+3y), t-th lane rotated by
    (t+1)(t+2)/2. *)
Fixpoint rho_walk (n : nat) (t x y : N) : list ((N * N) * N) :=
  match n with
  | O => []
  | S m => ((x, y), (t + 1) * (t + 2) / 2) :: rho_walk m (t + 1) y ((2 * x + 3 * y) mod 5)
  end.
Definition rho_offset (x y : N) : N :=
  match find (fun p => (fst (fst p) =? x) && (snd (fst p) =? y)) (rho_walk 24 0 1 0) with
  | Some p => snd p
  | None => 0
  end.
Definition rho (w : N) (A : list N) : list N :=
  from_lanes (fun x y => rolw w (lane A x y) (rho_offset x y mod w)).

(** pi *)
Definition pi (A : list N) : list N :=
  from_lanes (fun x y => lane A (x + 3 * y) x).

(** chi *)
Definition chi (w : N) (A : list N) : list N :=
  from_lanes (fun x y =>
    N.lxor (lane A x y) (N.land (notw w (lane A (x + 1) y)) (lane A (x + 2) y))).

(** iota: round constants from the LFSR of FIPS 202, algorithm 5. *)
Definition lfsr_step (R : list bool) : list bool :=
  match R with
  | [r0; r1; r2; r3; r4; r5; r6; r7] =>
      [r7; r0; r1; r2; xorb r3 r7; xorb r4 r7; xorb r5 r7; r6]
  | _ => R
  end.
Definition rc_bit (t : N) : bool :=
  nth 0 (N.iter (t mod 255) lfsr_step [true; false; false; false; false; false; false; false])
      false.
Definition round_constant (w ir : N) : N :=
  fold_left (fun acc j =>
      if rc_bit (j + 7 * ir) then N.lxor acc (N.shiftl 1 (2 ^ j - 1)) else acc)
    (map N.of_nat (seq 0 (S (N.to_nat (N.log2 w))))) 0.
Definition iota (w ir : N) (A : list N) : list N :=
  match A with
  | a :: t => N.lxor a (round_constant w ir) :: t
  | [] => []
  end.

Definition keccak_round (w ir : N) (A : list N) : list N :=
  iota w ir (chi w (pi (rho w (theta w A)))).

(** Keccak-f[25w]: 12 + 2 log2 w rounds. *)
Definition keccak_f (w : N) (A : list N) : list N :=
  fold_left (fun A ir => keccak_round w (N.of_nat ir) A)
    (seq 0 (N.to_nat (12 + 2 * N.log2 w))) A.
