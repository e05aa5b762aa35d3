(** * Model_KZG: model of [types/kzg_settings.rs], [kzg_proofs.rs], [types/g1.rs: mul] and of
    [utils.rs: generate_trusted_setup] (crate blst-from-scratch, sequential build) *)
From Coq Require Import List Arith Bool ZArith NArith.
From Verif Require Import Base Fld Model_Utils Model_FFT Model_Poly Zr.
Import ListNotations.

(** The external library blst supplies two groups of order r with generators and a
    pairing.  They are represented by arbitrary modules over the scalar field with an
    arbitrary bilinear map that is non-degenerate on the second generator; the code uses
    nothing else.  (Group elements are therefore elements of the order-r subgroups.) *)
Record pairing (K : fld) := mkPairing {
  PG1 : gmod K;
  PG2 : gmod K;
  PGT : gmod K;
  gen1 : PG1;
  gen2 : PG2;
  pe : PG1 -> PG2 -> PGT;
  pe_add_l : forall a a' b, pe (gadd a a') b = gadd (pe a b) (pe a' b);
  pe_add_r : forall a b b', pe a (gadd b b') = gadd (pe a b) (pe a b');
  pe_smul_l : forall x a b, pe (smul x a) b = smul x (pe a b);
  pe_smul_r : forall x a b, pe a (smul x b) = smul x (pe a b);
  pe_nondeg : forall a, pe a gen2 = g0 -> a = g0;
  gen1_neq_0 : gen1 <> g0
}.
Arguments PG1 {_} _. Arguments PG2 {_} _. Arguments PGT {_} _.
Arguments gen1 {_ _}. Arguments gen2 {_ _}. Arguments pe {_ _} _ _.

Section Model.
Context {K : fld} {P : pairing K}.
Variable table : list K.

(** types/kzg_settings.rs:12-17 *)
Record kzg_settings := mkKZG {
  kzg_fs : fft_settings K;
  secret_g1 : list (PG1 P);
  secret_g2 : list (PG2 P)
}.

(** utils.rs:75-90 [generate_trusted_setup], from the secret scalar on *)
Definition trusted_setup (n : nat) (s : K) : res (list (PG1 P) * list (PG2 P)) :=
  let* st := for_range 0 n (fun _ (st : K * list (PG1 P) * list (PG2 P)) =>
      let '(s_pow, s1, s2) := st in
      Ok (fmul s_pow s, s1 ++ [smul s_pow gen1], s2 ++ [smul s_pow gen2])) (f1, [], []) in
  let '(_, s1, s2) := st in Ok (s1, s2).

(** types/kzg_settings.rs:38-67 [new] *)
Definition kzg_new (sg1 : list (PG1 P)) (sg2 : list (PG2 P)) (len : nat) (fs : fft_settings K) : res kzg_settings :=
  if length sg1 <? max_width fs then Err
  else if length sg2 <? max_width fs then Err
  else if len <? max_width fs then Err
  else
    let* st := for_range 0 len (fun i (st : list (PG1 P) * list (PG2 P)) =>
        let (a, b) := st in
        let* x := idx sg1 i in
        let* y := idx sg2 i in
        Ok (a ++ [x], b ++ [y])) ([], []) in
    let* fs' := fft_settings_clone table fs in
    Ok (mkKZG fs' (fst st) (snd st)).

(** kzg_proofs.rs:11-55 [g1_linear_combination].  The second branch hands the points and
    scalars to blst's Pippenger routine, taken to return the sum of the scalar multiples;
    it reads [len] points through a raw pointer, so fewer points than that would be
    undefined behaviour (modelled as [Panic]; no caller does it). *)
Definition g1_linear_combination (p : list (PG1 P)) (coeffs : list K) (len : nat) : res (PG1 P) :=
  if len <? 8 then
    for_range 0 len (fun i out =>
      let* a := idx p i in
      let* c := idx coeffs i in
      Ok (gadd out (smul c a))) g0
  else
    let* _ := idx p 0 in
    let* scalars := for_range 0 len (fun i sc => let* c := idx coeffs i in Ok (sc ++ [c])) [] in
    if length p <? len then Panic
    else Ok (gsum len (fun i => smul (nth i scalars f0) (nth i p g0))).

(** types/kzg_settings.rs:69-78 [commit_to_poly] *)
Definition commit_to_poly (ks : kzg_settings) (p : list K) : res (PG1 P) :=
  if length (secret_g1 ks) <? length p then Err
  else g1_linear_combination (secret_g1 ks) p (length p).

(** kzg_proofs.rs:57-87 [pairings_verify]: the product of the pairings of (-a1, a2) and
    (b1, b2), written additively, compared with the identity of the target group *)
Definition pairings_verify (a1 : PG1 P) (a2 : PG2 P) (b1 : PG1 P) (b2 : PG2 P) : bool :=
  geqb (gadd (pe (gneg a1) a2) (pe b1 b2)) g0.

(** types/kzg_settings.rs:104-134 [compute_proof_multi] *)
Definition compute_proof_multi (ks : kzg_settings) (p : list K) (x0 : K) (n : nat) : res (PG1 P) :=
  if negb (is_pow2 n) then Err
  else
    let* x_pow_n := fr_pow x0 n in
    let divisor := [fneg x_pow_n] in
    let* divisor := for_range 1 n (fun _ d => Ok (d ++ [f0])) divisor in
    let divisor := divisor ++ [f1] in
    let* q := unwrap (poly_div table p divisor) in
    unwrap (commit_to_poly ks q).

(** types/kzg_settings.rs:80-82 [compute_proof_single] *)
Definition compute_proof_single (ks : kzg_settings) (p : list K) (x : K) : res (PG1 P) :=
  compute_proof_multi ks p x 1.

(** types/kzg_settings.rs:84-102 [check_proof_single] *)
Definition check_proof_single (ks : kzg_settings) (com proof : PG1 P) (x y : K) : res bool :=
  let x_g2 := smul x gen2 in
  let* sg := idx (secret_g2 ks) 1 in
  let s_minus_x := gsub sg x_g2 in
  let y_g1 := smul y gen1 in
  let commitment_minus_y := gsub com y_g1 in
  Ok (pairings_verify commitment_minus_y gen2 proof s_minus_x).

(** types/kzg_settings.rs:136-177 [check_proof_multi] *)
Definition check_proof_multi (ks : kzg_settings) (com proof : PG1 P) (x : K) (ys : list K) (n : nat) : res bool :=
  if negb (is_pow2 n) then Err
  else
    let* interp := fft_fr (kzg_fs ks) ys true in
    let inv_x := finv x in
    let* st := for_range 1 n (fun i (st : list K * K) =>
        let (interp, inv_x_pow) := st in
        let* c := idx interp i in
        let* interp := upd interp i (fmul c inv_x_pow) in
        Ok (interp, fmul inv_x_pow inv_x)) (interp, inv_x) in
    let (interp, inv_x_pow) := st in
    let x_pow := finv inv_x_pow in
    let xn2 := smul x_pow gen2 in
    let* sg := idx (secret_g2 ks) n in
    let xn_minus_yn := gsub sg xn2 in
    let* is1 := unwrap (commit_to_poly ks interp) in
    let commit_minus_interp := gsub com is1 in
    Ok (pairings_verify commit_minus_interp gen2 proof xn_minus_yn).
End Model.
Arguments kzg_settings {K} P.
Arguments mkKZG {K P} _ _ _.

(** ** scalars as bytes *)

(** value of a little-endian byte string *)
Fixpoint le_value (bs : list Z) : Z :=
  match bs with
  | [] => 0
  | b :: t => b + 256 * le_value t
  end%Z.

(** [n] little-endian bytes of an integer *)
Fixpoint le_bytes (n : nat) (z : Z) : list Z :=
  match n with
  | O => []
  | S n' => (z mod 256)%Z :: le_bytes n' (z / 256)%Z
  end.

(** types/fr.rs:200-209 [from_scalar]: blst reduces the 256-bit integer modulo r *)
Definition fr_from_scalar (bs : list Z) : Fr := fr_of (le_value bs).

(** types/fr.rs:191-198 [to_scalar] *)
Definition fr_to_scalar (x : Fr) : list Z := le_bytes 32 (val x).

(** utils.rs:75-90 [generate_trusted_setup] *)
Definition generate_trusted_setup {P : pairing Fr} (n : nat) (secret : list Z) : res (list (PG1 P) * list (PG2 P)) :=
  trusted_setup n (fr_from_scalar secret).

(** blst's [blst_p1_mult(out, point, bytes, nbits)]: the multiple by the integer formed by
    the low [nbits] bits of the little-endian bytes *)
Definition p1_mult {M : gmod Fr} (p : M) (bs : list Z) (nbits : Z) : M :=
  smul (fr_of (le_value bs mod 2 ^ nbits)%Z) p.

(** types/g1.rs:85-114 [mul] *)
Definition g1_mul {M : gmod Fr} (p : M) (b : Fr) : res M :=
  let scalar := fr_to_scalar b in
  let* i := while_ (S (length scalar))
     (fun i => negb (i =? 0) && match nth_error scalar (i - 1) with Some c => Z.eqb c 0 | None => true end)
     (fun i => let* _ := idx scalar (i - 1) in usub i 1) (length scalar) in
  if i =? 0 then Ok g0
  else
    let* b0 := idx scalar 0 in
    if (i =? 1) && Z.eqb b0 1 then Ok p
    else
      let* top := idx scalar (i - 1) in
      let* nb := usub (8 * i) 7 in
      Ok (p1_mult p scalar (Z.of_nat nb + Z.of_N (log_2_byte (Z.to_N top)))).
