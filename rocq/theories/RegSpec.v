(** Specification of the registry: a bounded least-recently-used store, in terms of the
    history of requested epochs. *)
From Coq Require Import NArith ZArith List Bool Permutation.
From Verif Require Import Base RegModel.
Import ListNotations.
Open Scope N_scope.

(** The distinct epochs of a history, most recently requested first; the argument is the
    history with the latest request first. *)
Fixpoint recent (h : list N) : list N :=
  match h with
  | [] => []
  | e :: t => e :: filter (fun x => negb (x =? e)) (recent t)
  end.

(** The epochs an LRU store of capacity [count] holds after the requests [epochs] (in
    chronological order): the last [count] distinct ones. *)
Definition lru_content (count : nat) (epochs : list N) : list N :=
  firstn count (recent (rev epochs)).

(** The requests run at strictly increasing times after [t0]; the map is iterated in some
    order each time; epochs are below the last 64-bit number. *)
Fixpoint requests_ok (t0 : Z) (l : list request) : Prop :=
  match l with
  | [] => True
  | q :: l' =>
      (t0 < rq_now q)%Z /\ (forall m, Permutation m (rq_order q m)) /\
      rq_epoch q < 2 ^ 64 - 1 /\ requests_ok (rq_now q) l'
  end.

(** The object handed out by the last request for [e]. *)
Fixpoint last_object (e : N) (epochs : list N) (objs : list cobj) (acc : option cobj)
  : option cobj :=
  match epochs, objs with
  | x :: epochs', c :: objs' => last_object e epochs' objs' (if x =? e then Some c else acc)
  | _, _ => acc
  end.
