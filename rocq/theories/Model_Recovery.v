(** * Model_Recovery: model of [recovery.rs] and of the recovery trait of [types/poly.rs]
    (crate blst-from-scratch, sequential build) *)
From Coq Require Import List Arith Bool ZArith.
From Verif Require Import Base Fld Model_Utils Model_FFT Model_Poly Model_ZeroPoly Zr.
Import ListNotations.

Section Model.
Context {K : fld}.

(** recovery.rs:15-23 and 32-39: the two tables [1, c, c^2, ...]; the code fixes [tl] to
    65536.  The [OnceCell] around them only avoids recomputing the same value. *)
Definition factor_table (tl : nat) (c : K) : res (list K) :=
  for_range 1 tl (fun i temp => let* x := idx temp (i - 1) in Ok (temp ++ [fmul x c])) [f1].

(** recovery.rs:25-27 and 41-43: the loop shared by both functions *)
Definition apply_factors (factors p : list K) (len_p : nat) : res (list K) :=
  for_range 1 len_p (fun i p =>
    let* x := idx p i in
    let* f := idx factors i in
    upd p i (fmul x f)) p.

(** recovery.rs:14-28 [scale_poly] (SCALE_FACTOR = 5, recovery.rs:9) *)
Definition scale_poly (tl : nat) (p : list K) (len_p : nat) : res (list K) :=
  let* factors := factor_table tl (finv (fnat 5)) in
  apply_factors factors p len_p.

(** recovery.rs:31-44 [unscale_poly] *)
Definition unscale_poly (tl : nat) (p : list K) (len_p : nat) : res (list K) :=
  let* factors := factor_table tl (fnat 5) in
  apply_factors factors p len_p.

(** recovery.rs:54-59 and types/poly.rs:401-407: positions of the missing samples *)
Definition missing_positions {A} (is_missing : A -> bool) (samples : list A) : list nat :=
  map fst (filter (fun p => is_missing (snd p)) (combine (seq 0 (length samples)) samples)).

(** recovery.rs:86-161 and types/poly.rs:430-472: from the values of [E * Z] and the
    vanishing polynomial [Z] to the reconstructed data (the text is the same in both) *)
Definition recover_core (tl : nat) (s : fft_settings K) (n : nat) (evals zero_poly : list K) : res (list K) :=
  let* poly_with_zero := unwrap (fft_fr s evals true) in
  let len_zero_poly := length zero_poly in
  let* scaled_poly_with_zero := scale_poly tl poly_with_zero n in
  let* scaled_zero_poly := scale_poly tl zero_poly len_zero_poly in
  let* ev1 := unwrap (fft_fr s scaled_poly_with_zero false) in
  let* ev2 := unwrap (fft_fr s scaled_zero_poly false) in
  let* evr := for_range 0 n (fun i l =>
      let* a := idx ev1 i in
      let* b := idx ev2 i in
      let* q := unwrap (fr_div a b) in
      upd l i q) ev1 in
  let* scaled := unwrap (fft_fr s evr true) in
  let* poly := unscale_poly tl scaled n in
  unwrap (fft_fr s poly false).

(** types/poly.rs:393-479 [recover_poly_from_samples] on optional samples *)
Definition recover_opt (tl : nat) (s : fft_settings K) (samples : list (option K)) : res (list K) :=
  let n := length samples in
  if negb (is_pow2 n) then Err
  else
    let missing := missing_positions (fun o => match o with None => true | Some _ => false end) samples in
    let* z := unwrap (zero_poly_via_multiplication s n missing) in
    let (zero_eval, zero_poly) := z in
    let* _ := for_range 0 n (fun i _ =>
        let* sm := idx samples i in
        let* ze := idx zero_eval i in
        assert (Bool.eqb (match sm with None => true | Some _ => false end) (feqb ze f0))) tt in
    let* evals := for_range 0 n (fun i l =>
        let* sm := idx samples i in
        match sm with
        | None => Ok (l ++ [f0])
        | Some v => let* ze := idx zero_eval i in Ok (l ++ [fmul v ze])
        end) [] in
    let* data := recover_core tl s n evals zero_poly in
    let* _ := for_range 0 n (fun i _ =>
        let* sm := idx samples i in
        match sm with
        | None => Ok tt
        | Some v => let* d := idx data i in assert (feqb d v)
        end) tt in
    Ok data.

(** recovery.rs:46-176 [recover_poly_from_samples] on samples where missing values are
    marked with the element [null] *)
Definition recover_null (null : K) (tl : nat) (s : fft_settings K) (samples : list K) (n : nat) : res (list K) :=
  if negb (is_pow2 n) then Err
  else
    let missing := missing_positions (fun v => feqb v null) samples in
    let* z := unwrap (zero_poly_via_multiplication s n missing) in
    let (zero_eval, zero_poly) := z in
    let* _ := for_range 0 n (fun i _ =>
        let* v := idx samples i in
        let* ze := idx zero_eval i in
        if negb (Bool.eqb (feqb v null) (feqb ze f0)) then Err else Ok tt) tt in
    let* evals := for_range 0 n (fun i l =>
        let* v := idx samples i in
        if feqb v null then Ok (l ++ [f0])
        else let* ze := idx zero_eval i in Ok (l ++ [fmul v ze])) [] in
    (* recovery.rs:93: computed in the sequential build too, and can panic *)
    let* l1 := usub (length zero_poly) 1 in
    let* _ := next_pow2 l1 in
    let* data := recover_core tl s n evals zero_poly in
    let* _ := for_range 0 n (fun i _ =>
        let* v := idx samples i in
        if feqb v null then Ok tt
        else let* d := idx data i in if feqb d v then Ok tt else Err) tt in
    Ok data.
End Model.

(** recovery.rs:19, 35: the table length used by the code *)
Definition factor_table_len : nat := 2 ^ 16.

(** types/fr.rs:15-17 [null]: the four limbs 2^64-1 read as an integer, reduced modulo r *)
Definition fr_null : Fr := fr_of (2 ^ 256 - 1).
