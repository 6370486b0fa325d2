(** Eaglesong as a program on memory (MemModel.v): the same code as EagleModel.v. *)
From Coq Require Import NArith List Bool.
From Verif Require Import Base EagleModel MemModel.
Import ListNotations.
Open Scope N_scope.

Section Eagle.
(** The package variables bitMatrix, coefficients and injectionConstants (eaglesong_constants.go:9-126). *)
Variables bits coeffs inject : sl.

(** eaglesong.go:7-12 *)
Definition p_bitStage (state : sl) : prog sl :=
  temp <~ make 16 ;;
  _ <~ pfor_n 16 (fun j _ =>
    pfor_n 16 (fun k _ =>
      t <~ get temp j ;; b <~ get bits (k * 16 + j) ;; s <~ get state k ;;
      set temp j (N.lxor t (mulw 32 b s))) tt) tt ;;
  Ret temp.
(** eaglesong.go:14-16 *)
Definition p_copyStage (temp state : sl) : prog unit :=
  pfor_n 16 (fun j _ => t <~ get temp j ;; set state j t) tt.
(** eaglesong.go:18-25; the four updates of an element are one write here. *)
Definition p_circStage (state : sl) : prog unit :=
  pfor_n 16 (fun j _ =>
    value <~ get state j ;;
    c1 <~ get coeffs (3 * j + 1) ;;
    c2 <~ get coeffs (3 * j + 2) ;;
    let x := N.lxor value (shlw 32 value c1) in
    let x := N.lxor x (N.shiftr value (32 - c1)) in
    let x := N.lxor x (shlw 32 value c2) in
    let x := N.lxor x (N.shiftr value (32 - c2)) in
    set state j x) tt.
(** eaglesong.go:27-30 *)
Definition p_injectStage (i : N) (state : sl) : prog unit :=
  pfor_n 16 (fun j _ =>
    s <~ get state j ;; c <~ get inject (i * 16 + j) ;; set state j (N.lxor s c)) tt.
(** eaglesong.go:32-38; the updates of an element are one write here. *)
Definition p_arxStage (state : sl) : prog unit :=
  pfor_n 8 (fun h _ =>
    let j := 2 * h in
    a <~ get state j ;; b <~ get state (j + 1) ;;
    let a := addw 32 a b in
    let a := N.lxor (shlw 32 a 8) (N.shiftr a 24) in
    let b := N.lxor (shlw 32 b 24) (N.shiftr b 8) in
    _ <~ set state j a ;;
    set state (j + 1) (addw 32 a b)) tt.
(** eaglesong.go:5-40 *)
Definition p_permute (rounds : N) (state : sl) : prog unit :=
  pfor_n rounds (fun i _ =>
    temp <~ p_bitStage state ;;
    _ <~ p_copyStage temp state ;;
    _ <~ p_circStage state ;;
    _ <~ p_injectStage i state ;;
    p_arxStage state) tt.
(** eaglesong.go:47-55 *)
Definition p_absorbWord (rate delim : N) (input : sl) (i j : N) : prog N :=
  pfor_n 4 (fun k integer =>
    let p := i * rate / 8 + j * 4 + k in
    if p <? s_len input then b <~ get input p ;; Ret (N.lxor (shlw 32 integer 8) b)
    else if p =? s_len input then Ret (N.lxor (shlw 32 integer 8) delim)
    else Ret integer) 0.
(** eaglesong.go:42-78 *)
Definition p_eaglesong (rounds capacity rate delim : N) (input : sl) : prog sl :=
  state <~ make 16 ;;
  blocks <~ pure (divc ((s_len input + 1) * 8 + rate - 1) rate) ;;
  _ <~ pfor_n blocks (fun i _ =>
      _ <~ pfor_n (rate / 32) (fun j _ =>
          integer <~ p_absorbWord rate delim input i j ;;
          s <~ get state j ;;
          set state j (N.lxor s integer)) tt ;;
      p_permute rounds state) tt ;;
  output <~ make capacity ;;
  outs <~ pure (divc capacity (rate / 8)) ;;
  _ <~ pfor_n outs (fun i _ =>
      _ <~ pfor_n (rate / 32) (fun j _ =>
          pfor_n 4 (fun k _ =>
            s <~ get state j ;;
            set output (i * rate / 8 + j * 4 + k) (N.land (N.shiftr s (8 * k)) 255)) tt) tt ;;
      p_permute rounds state) tt ;;
  Ret output.
End Eagle.
