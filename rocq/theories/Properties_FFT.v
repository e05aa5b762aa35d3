(** * Properties C05-C10 and C44: roots of unity and Fourier transforms

    [Fr] is the BLS12-381 scalar field, [blst_table] the embedded root constants,
    [root m] the constant number [m]; [M] is any group of exponent r (module over [Fr]). *)
From Coq Require Import List Arith Lia ZArith.
From Coq Require Znumtheory.
From Verif Require Import Base Fld Poly Tables Zr ZrTables Model_FFT Spec Proof_FFT Proof_FFTFr.
Import ListNotations.

Theorem C44_modulus_prime : Znumtheory.prime r /\ limbs_val r_limbs = r /\ (r mod 2 ^ 32 = 1 /\ r mod 2 ^ 33 <> 1)%Z.
Proof. exact (conj r_prime (conj r_limbs_val r_two_adicity)). Qed.
Print Assumptions C44_modulus_prime.

Theorem C44_roots_primitive : forall m, m < 32 -> primitive (root m) (2 ^ m).
Proof. exact root_primitive. Qed.
Print Assumptions C44_roots_primitive.
Example C44_roots_primitive_ex : val (root 1) = (r - 1)%Z.
Proof. reflexivity. Qed.

(** all four limb tables in the repository are the same table *)
Theorem C44_tables_agree : ark_SCALE2_ROOT_OF_UNITY = blst_SCALE2_ROOT_OF_UNITY /\
  zk_SCALE2_ROOT_OF_UNITY = blst_SCALE2_ROOT_OF_UNITY /\
  ckzg_SCALE2_ROOT_OF_UNITY = blst_SCALE2_ROOT_OF_UNITY.
Proof. exact tables_same. Qed.
Print Assumptions C44_tables_agree.

Theorem C05_settings_new : forall scale : nat,
  (scale < 32 ->
   exists s w, fft_settings_new blst_table scale = Ok s /\
     max_width s = 2 ^ scale /\ primitive w (2 ^ scale) /\ root_of_unity s = w /\
     length (expanded_roots s) = 2 ^ scale + 1 /\ length (reverse_roots s) = 2 ^ scale + 1 /\
     forall i, i <= 2 ^ scale ->
       nth_error (expanded_roots s) i = Some (fpow w i) /\
       nth_error (reverse_roots s) i = Some (fpow w (2 ^ scale - i)) /\
       fmul (fpow w i) (fpow w (2 ^ scale - i)) = f1) /\
  (32 <= scale -> fft_settings_new blst_table scale = Err).
Proof. exact C05_proof. Qed.
Print Assumptions C05_settings_new.
Example C05_settings_new_ex :
  match fft_settings_new blst_table 2 with
  | Ok s => map val (expanded_roots s) =
     [1; 0x8d51ccce760304d0ec030002760300000001000000000000; r - 1;
      r - 0x8d51ccce760304d0ec030002760300000001000000000000; 1]%Z
  | _ => False end.
Proof. vm_compute. reflexivity. Qed.

(** the low-level table builder, for every root and every width *)
Theorem C05_expand_root_of_unity : forall (K : fld) (w : K) (width : nat),
  match expand_root_of_unity w width with
  | Ok l => exists n, 1 <= n /\ (n = 1 \/ n <= width) /\ primitive w n /\ l = map (fpow w) (seq 0 (S n))
  | Err => forall i, 1 <= i <= width -> fpow w i <> f1
  | _ => False
  end.
Proof. exact @expand_root_of_unity_spec. Qed.
Print Assumptions C05_expand_root_of_unity.
Example C05_expand_root_of_unity_ex :
  match expand_root_of_unity (root 3) 4 with Err => True | _ => False end /\
  match expand_root_of_unity (root 2) 4 with Ok l => length l = 5 | _ => False end.
Proof. split; vm_compute; reflexivity || exact I. Qed.

Theorem C06_fft_fr_arguments : forall k s (data : list Fr) (inverse : bool),
  fft_settings_new blst_table k = Ok s ->
  (acceptable s (length data) -> exists out, fft_fr s data inverse = Ok out /\ length out = length data) /\
  (~ acceptable s (length data) -> fft_fr s data inverse = Err).
Proof. exact fft_fr_total. Qed.
Print Assumptions C06_fft_fr_arguments.

Theorem C06_fft_g1_arguments : forall (M : gmod Fr) k s (data : list M) (inverse : bool),
  fft_settings_new blst_table k = Ok s ->
  (acceptable s (length data) -> exists out, fft_g1 s data inverse = Ok out /\ length out = length data) /\
  (~ acceptable s (length data) -> fft_g1 s data inverse = Err).
Proof. exact fft_g1_total. Qed.
Print Assumptions C06_fft_g1_arguments.
Example C06_ex : exists s, fft_settings_new blst_table 3 = Ok s /\ acceptable s 4 /\ ~ acceptable s 0 /\ ~ acceptable s 16.
Proof.
  destruct (new_ok 3) as (s & E & S); [lia|]. exists s. destruct S as (W & _). unfold acceptable. rewrite W.
  change (2 ^ 3) with 8. split; [exact E|]. split; [split; [lia|exists 2; reflexivity]|]. split; [|lia].
  intros (_ & m & H). assert (P := Nat.pow_nonzero 2 m). lia.
Qed.

Theorem C07_fft_evaluates : forall k s m (data : list Fr),
  fft_settings_new blst_table k = Ok s -> m <= k -> length data = 2 ^ m ->
  exists out, fft_fr s data false = Ok out /\ length out = 2 ^ m /\
    forall i, i < 2 ^ m -> nth_error out i = Some (peval data (fpow (root m) i)).
Proof. exact C07_proof. Qed.
Print Assumptions C07_fft_evaluates.
Example C07_ex :
  match fft_settings_new blst_table 2 with
  | Ok s => match fft_fr s [fr_of 1; fr_of 2] false with Ok out => map val out = [3; r - 1]%Z | _ => False end
  | _ => False end.
Proof. vm_compute. reflexivity. Qed.

Theorem C08_fft_inverse : forall k s (data : list Fr),
  fft_settings_new blst_table k = Ok s -> acceptable s (length data) ->
  (let* f := fft_fr s data false in fft_fr s f true) = Ok data /\
  (let* f := fft_fr s data true in fft_fr s f false) = Ok data.
Proof. exact C08_proof. Qed.
Print Assumptions C08_fft_inverse.
Example C08_ex :
  match fft_settings_new blst_table 2 with
  | Ok s => match fft_fr s [fr_of 1; fr_of 2; fr_of 7; fr_of 9] true with
            | Ok o => match fft_fr s o false with Ok out => map val out = [1; 2; 7; 9]%Z | _ => False end | _ => False end
  | _ => False end.
Proof. vm_compute. reflexivity. Qed.

Theorem C09_fast_is_slow : forall (K : fld) (w : K) m (ret1 ret2 data roots : list K) rs,
  primitive w (2 ^ m) -> length data = 2 ^ m -> length ret1 = 2 ^ m -> length ret2 = 2 ^ m ->
  (forall i, i < 2 ^ m -> nth_error roots (i * rs) = Some (fpow w i)) ->
  exists out, fft_fr_fast ret1 data 1 roots rs = Ok out /\ fft_fr_slow ret2 data 1 roots rs = Ok out /\
    length out = 2 ^ m /\ forall i, i < 2 ^ m -> nth_error out i = Some (peval data (fpow w i)).
Proof. exact C09_proof. Qed.
Print Assumptions C09_fast_is_slow.
Example C09_ex : primitive (root 1) (2 ^ 1) /\
  forall i, i < 2 ^ 1 -> nth_error [fr_of 1; fr_of (-1)] (i * 1) = Some (fpow (root 1) i).
Proof.
  split; [apply root_primitive; lia|]. change (2 ^ 1) with 2. intros i Hi.
  destruct i as [|[|i]]; [reflexivity| |lia].
  simpl. f_equal. apply val_inj. vm_compute. reflexivity.
Qed.

Theorem C10_fft_g1 : forall (M : gmod Fr) k s m (data : list M),
  fft_settings_new blst_table k = Ok s -> m <= k -> length data = 2 ^ m ->
  exists out, fft_g1 s data false = Ok out /\ length out = 2 ^ m /\
    (forall i, i < 2 ^ m ->
       nth_error out i = Some (gsum (2 ^ m) (fun j => smul (fpow (root m) (i * j)) (nth j data g0)))) /\
    fft_g1 s out true = Ok data /\
    (exists inv, fft_g1 s data true = Ok inv /\ fft_g1 s inv false = Ok data).
Proof. exact C10_proof. Qed.
Print Assumptions C10_fft_g1.

Theorem C10_fft_g1_in_exponent : forall (M : gmod Fr) (G : M) k s m (a : list Fr) (inverse : bool),
  fft_settings_new blst_table k = Ok s -> m <= k -> length a = 2 ^ m ->
  exists b, fft_fr s a inverse = Ok b /\
    fft_g1 s (map (fun x => smul x G) a) inverse = Ok (map (fun x => smul x G) b).
Proof. exact C10_exponent_proof. Qed.
Print Assumptions C10_fft_g1_in_exponent.

Theorem C10_fast_is_slow : forall (K : fld) (M : gmod K) (w : K) m (ret1 ret2 data : list M) (roots : list K) rs,
  primitive w (2 ^ m) -> length data = 2 ^ m -> length ret1 = 2 ^ m -> length ret2 = 2 ^ m ->
  (forall i, i < 2 ^ m -> nth_error roots (i * rs) = Some (fpow w i)) ->
  exists out, fft_g1_fast ret1 data 1 roots rs = Ok out /\ fft_g1_slow ret2 data 1 roots rs = Ok out.
Proof. exact C10_slow_proof. Qed.
Print Assumptions C10_fast_is_slow.
Example C10_ex :
  match fft_settings_new blst_table 2 with
  | Ok s => match fft_g1 (M := self_mod Fr) s [fr_of 1; fr_of 2] false with Ok out => map val out = [3; r - 1]%Z | _ => False end
  | _ => False end.
Proof. vm_compute. reflexivity. Qed.
