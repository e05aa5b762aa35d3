(** * Properties C62-C64: scalars, commitments, opening proofs and batch proofs of the mcl backend

    [P] is an arbitrary pairing over the scalar field; [mcl_setup ks k w n len s]
    (Spec_MclKZG.v) says that [ks] came out of the public constructors with effective FFT
    scale [k] and root [w], a trusted setup of [n] elements of which [len] are kept, and
    secret scalar [s].  [fexp] is the exponent of the second final exponentiation in the
    pairing check, an arbitrary non-zero scalar. *)
From Coq Require Import List Arith Lia ZArith NArith.
From Verif Require Import Base Fld Poly Model_Utils Model_FFT Zr ZrTables Spec.
From Verif Require Import Model_KZG Spec_KZG Model_Mcl Spec_Mcl Model_MclKZG Spec_MclKZG Proof_MclKZGFr.
Import ListNotations.

(** ** C62: scalar conversions *)
Theorem C62_words : forall u : list Z, length u = 4%nat -> (forall a, In a u -> 0 <= a < 2 ^ 64)%Z ->
  ((words_value u < r)%Z -> exists x, mcl_from_u64_arr u = Ok x /\ val x = words_value u /\ mcl_to_u64_arr x = u) /\
  ((r <= words_value u)%Z -> mcl_from_u64_arr u = Panic).
Proof. exact C62_words_proof. Qed.
Print Assumptions C62_words.
Theorem C62_roundtrip : forall x : Fr, mcl_from_u64_arr (mcl_to_u64_arr x) = Ok x /\
  length (mcl_to_u64_arr x) = 4%nat /\ (forall a, In a (mcl_to_u64_arr x) -> 0 <= a < 2 ^ 64)%Z /\
  words_value (mcl_to_u64_arr x) = val x.
Proof. exact C62_roundtrip_proof. Qed.
Print Assumptions C62_roundtrip.
Theorem C62_from_u64 : forall v, (0 <= v < 2 ^ 64)%Z -> exists x, mcl_from_u64 v = Ok x /\ val x = v.
Proof. exact C62_from_u64_proof. Qed.
Print Assumptions C62_from_u64.
(** [from_scalar]: four big-endian words, the least significant word first *)
Theorem C62_from_scalar : forall bs : list Z, length bs = 32%nat -> (forall b, In b bs -> 0 <= b < 256)%Z ->
  ((mixed_value bs < r)%Z -> exists x, mcl_from_scalar bs = Ok x /\ val x = mixed_value bs) /\
  ((r <= mixed_value bs)%Z -> mcl_from_scalar bs = Panic).
Proof. exact C62_scalar_proof. Qed.
Print Assumptions C62_from_scalar.
(** so the same secret bytes mean different scalars here and in the blst backend *)
Theorem C62_scalar_order_refuted : forall b, (0 < b < 256)%Z -> exists x,
  mcl_from_scalar (b :: repeat 0%Z 31) = Ok x /\ val x = (b * 2 ^ 56)%Z /\ val (fr_from_scalar (b :: repeat 0%Z 31)) = b.
Proof. exact C62_scalar_differs_proof. Qed.
Print Assumptions C62_scalar_order_refuted.
(** the "null" scalar is an ordinary field element, which callers can also obtain *)
Theorem C62_null_refuted : exists z, mcl_null = Ok z /\ (forall x, mcl_is_null x = Ok (if feqb x z then true else false)) /\
  exists u, length u = 4%nat /\ (forall a, In a u -> 0 <= a < 2 ^ 64)%Z /\ mcl_from_u64_arr u = Ok z.
Proof. exact C62_null_proof. Qed.
Print Assumptions C62_null_refuted.
Example C62_ex :
  match mcl_from_u64_arr [7; 0; 1; 0]%Z, mcl_from_scalar (repeat 0 15 ++ [2] ++ repeat 0 16)%Z, mcl_from_u64_arr [0; 0; 0; 2 ^ 63]%Z with
  | Ok x, Ok y, Panic => val x = (7 + 2 ^ 128)%Z /\ mcl_to_u64_arr x = [7; 0; 1; 0]%Z /\ val y = (2 * 2 ^ 64)%Z
  | _, _, _ => False end.
Proof. vm_compute. auto. Qed.

(** ** C63: trusted setup, commitments, single and multi proofs *)

(** settings with scale 1, a setup of four elements and secret scalar 3 *)
Definition mcl_toy : res (kzg_settings (toy_pairing Fr)) :=
  let* fs := fst (mcl_new 100 mcl_pr5_table 1 globals0) in
  let* st := mcl_generate_trusted_setup (P := toy_pairing Fr) 4 (repeat 0 7 ++ [3] ++ repeat 0 24)%Z in
  mcl_kzg_new (fst st) (snd st) 4 fs.

Theorem mcl_setup_available : forall (P : pairing Fr) fs k w n len secret s,
  mcl_made fs k w -> 2 ^ k <= len <= n -> mcl_from_scalar secret = Ok s ->
  exists ks : kzg_settings P, mcl_setup ks k w n len s /\ kzg_fs ks = fs.
Proof. exact @mcl_setup_exists. Qed.
Print Assumptions mcl_setup_available.

Theorem C63_trusted_setup : forall (P : pairing Fr) n secret, length secret = 32 -> (forall b, In b secret -> 0 <= b < 256)%Z ->
  ((r <= mixed_value secret)%Z -> mcl_generate_trusted_setup (P := P) n secret = Panic) /\
  ((mixed_value secret < r)%Z -> exists s g1s g2s, mcl_from_scalar secret = Ok s /\
     mcl_generate_trusted_setup (P := P) n secret = Ok (g1s, g2s) /\ length g1s = n /\ length g2s = n /\
     forall i, i < n -> nth_error g1s i = Some (smul (fpow s i) gen1) /\ nth_error g2s i = Some (smul (fpow s i) gen2)).
Proof. exact @C63_setup_proof. Qed.
Print Assumptions C63_trusted_setup.
(** settings are refused when narrower than the transforms; asking for more elements than
    the setup has is not refused but panics *)
Theorem C63_settings : forall (P : pairing Fr) (sg1 : list (PG1 P)) (sg2 : list (PG2 P)) len fs,
  (mcl_kzg_new sg1 sg2 len fs = Err <-> length sg1 < max_width fs \/ length sg2 < max_width fs \/ len < max_width fs) /\
  (max_width fs <= len -> len <= length sg1 -> len <= length sg2 ->
     mcl_kzg_new sg1 sg2 len fs = Ok (mkKZG fs (firstn len sg1) (firstn len sg2))) /\
  (max_width fs <= length sg1 -> max_width fs <= length sg2 -> max_width fs <= len -> length sg1 < len \/ length sg2 < len ->
     mcl_kzg_new sg1 sg2 len fs = Panic).
Proof. exact @C63_new_proof. Qed.
Print Assumptions C63_settings.
Theorem C63_commitment : forall (P : pairing Fr) (ks : kzg_settings P) k w n len s (p : list Fr), mcl_setup ks k w n len s ->
  (length p <= len -> mcl_commit ks p = Ok (smul (peval p s) gen1)) /\ (len < length p -> mcl_commit ks p = Err).
Proof. exact @C63_commit_proof. Qed.
Print Assumptions C63_commitment.
(** the honest proof is accepted for the true value and for no other *)
Theorem C63_single_proofs : forall (P : pairing Fr) (ks : kzg_settings P) k w n len s fexp (p : list Fr) x,
  mcl_setup ks k w n len s -> fexp <> f0 -> length p <= len -> 2 <= len ->
  exists com proof, mcl_commit ks p = Ok com /\ mcl_compute_proof_single ks p x = Ok proof /\
    mcl_check_proof_single fexp ks com proof x (peval p x) = Ok true /\
    forall y, y <> peval p x -> mcl_check_proof_single fexp ks com proof x y = Ok false.
Proof. exact @C63_single_proof. Qed.
Print Assumptions C63_single_proofs.
Theorem C63_single_acceptance : forall (P : pairing Fr) (ks : kzg_settings P) k w n len s fexp com proof x y,
  mcl_setup ks k w n len s -> fexp <> f0 ->
  (2 <= len -> exists b, mcl_check_proof_single fexp ks com proof x y = Ok b /\
     (b = true <-> gsub com (smul y gen1) = smul (fsub s x) proof)) /\
  (len < 2 -> mcl_check_proof_single fexp ks com proof x y = Panic).
Proof. exact @C63_single_check_proof. Qed.
Print Assumptions C63_single_acceptance.
(** two different values accepted at one point give away [1/(s - x)]G *)
Theorem C63_binding : forall (P : pairing Fr) (ks : kzg_settings P) k w n len s fexp com p1 p2 x y1 y2,
  mcl_setup ks k w n len s -> fexp <> f0 -> 2 <= len -> y1 <> y2 ->
  mcl_check_proof_single fexp ks com p1 x y1 = Ok true -> mcl_check_proof_single fexp ks com p2 x y2 = Ok true ->
  s <> x /\ smul (finv (fsub s x)) gen1 = smul (finv (fsub y2 y1)) (gsub p1 p2).
Proof. exact @C63_binding_proof. Qed.
Print Assumptions C63_binding.
(** an overlong polynomial is not refused: the top of the quotient is dropped silently *)
Theorem C63_overlong_single_refuted : forall (P : pairing Fr) (ks : kzg_settings P) k w n len s (p : list Fr) x,
  mcl_setup ks k w n len s ->
  exists q, euclid p [fneg x; f1] q /\ length q = length p - 1 /\
    mcl_compute_proof_single ks p x = Ok (smul (peval (firstn len q) s) gen1).
Proof. exact @C63_truncated_proof. Qed.
Print Assumptions C63_overlong_single_refuted.
(** the quotient of X^5 by X - 1 has five coefficients; the setup keeps four (value at 3: 40, not 121) *)
Example C63_single_ex :
  match mcl_toy with
  | Ok ks =>
    match mcl_commit ks [fr_of 1; fr_of 2; fr_of 5], mcl_compute_proof_single ks [fr_of 1; fr_of 2; fr_of 5] (fr_of 7),
          mcl_compute_proof_single ks (repeat (fr_of 0) 5 ++ [fr_of 1]) (fr_of 1) with
    | Ok com, Ok pi, Ok trunc =>
        val com = 52%Z /\ val pi = 52%Z /\ val trunc = 40%Z /\
        mcl_check_proof_single (fr_of 3) ks com pi (fr_of 7) (fr_of 260) = Ok true /\
        mcl_check_proof_single (fr_of 3) ks com pi (fr_of 7) (fr_of 261) = Ok false
    | _, _, _ => False end
  | _ => False end.
Proof. vm_compute. auto. Qed.
(** the exponent of BLS12-381's final exponentiation is not a multiple of the group order *)
Example C63_fexp_ex :
  let p := 0x1a0111ea397fe69a4b1ba7b6434bacd764774b84f38512bf6730d2a0f6b0f6241eabfffeb153ffffb9feffffffffaaab%Z in
  ((p ^ 12 - 1) mod r = 0 /\ ((p ^ 12 - 1) / r) mod r <> 0 /\ (3 * ((p ^ 12 - 1) / r)) mod r <> 0)%Z.
Proof. vm_compute. repeat split; discriminate. Qed.

Theorem C63_multi_compute : forall (P : pairing Fr) (ks : kzg_settings P) k w n len s (p : list Fr) x c,
  mcl_setup ks k w n len s -> (N.of_nat (2 * length p) <= 2 ^ 30)%N ->
  (c = 0 -> mcl_compute_proof_multi mcl_pr5_table ks p x c = Panic) /\
  (c <> 0 -> (forall m, c <> 2 ^ m) -> mcl_compute_proof_multi mcl_pr5_table ks p x c = Err) /\
  (forall m, c = 2 ^ m -> length p <= len + c -> exists q, euclid p ([fneg (fpow x c)] ++ repeat f0 (c - 1) ++ [f1]) q /\
     mcl_compute_proof_multi mcl_pr5_table ks p x c = Ok (smul (peval q s) gen1)) /\
  (forall m, c = 2 ^ m -> len + c < length p -> mcl_compute_proof_multi mcl_pr5_table ks p x c = Panic).
Proof. exact @C63_multi_compute_proof. Qed.
Print Assumptions C63_multi_compute.
Theorem C63_multi_proofs : forall (P : pairing Fr) (ks : kzg_settings P) k w n len s fexp m (p : list Fr) x,
  mcl_setup ks k w n len s -> fexp <> f0 -> m <= k -> m < 31 -> 2 ^ m < len ->
  (N.of_nat (2 * length p) <= 2 ^ 30)%N -> length p <= len -> x <> f0 \/ m = 0 ->
  exists com proof, mcl_commit ks p = Ok com /\ mcl_compute_proof_multi mcl_pr5_table ks p x (2 ^ m) = Ok proof /\
    mcl_check_proof_multi fexp ks com proof x (map (fun i => peval p (fmul x (fpow (fpow w (2 ^ (k - m))) i))) (seq 0 (2 ^ m))) (2 ^ m) = Ok true.
Proof. exact @C63_multi_proof. Qed.
Print Assumptions C63_multi_proofs.
(** the equation a multi proof is accepted by; [I] is the polynomial through the claimed values *)
Theorem C63_multi_acceptance : forall (P : pairing Fr) (ks : kzg_settings P) k w n len s fexp m com proof x (ys I : list Fr),
  mcl_setup ks k w n len s -> fexp <> f0 -> m <= k -> m < 31 ->
  length ys = 2 ^ m -> 2 ^ m < len -> x <> f0 \/ m = 0 -> length I <= 2 ^ m ->
  (forall i, i < 2 ^ m -> peval I (fmul x (fpow (fpow w (2 ^ (k - m))) i)) = nth i ys f0) ->
  exists b, mcl_check_proof_multi fexp ks com proof x ys (2 ^ m) = Ok b /\
    (b = true <-> gsub com (smul (peval I s) gen1) = smul (fsub (fpow s (2 ^ m)) (fpow x (2 ^ m))) proof).
Proof. exact @C63_multi_accept_proof. Qed.
Print Assumptions C63_multi_acceptance.
Theorem C63_multi_arguments : forall (P : pairing Fr) (ks : kzg_settings P) k w n len s fexp com proof x (ys : list Fr) c,
  mcl_setup ks k w n len s -> fexp <> f0 ->
  (c = 0 -> mcl_check_proof_multi fexp ks com proof x ys c = Panic) /\
  (c <> 0 -> (forall m, c <> 2 ^ m) -> mcl_check_proof_multi fexp ks com proof x ys c = Err) /\
  (forall m, c = 2 ^ m ->
    (2 ^ k < length ys -> mcl_check_proof_multi fexp ks com proof x ys c = Panic) /\
    forall j, length ys = 2 ^ j -> j <= k -> j < 31 ->
     (c <= length ys -> c < len -> exists b, mcl_check_proof_multi fexp ks com proof x ys c = Ok b) /\
     (length ys < c \/ len <= c -> mcl_check_proof_multi fexp ks com proof x ys c = Panic)).
Proof. exact @C63_multi_check_proof. Qed.
Print Assumptions C63_multi_arguments.
(** missing values are not refused: they count as zeros *)
Theorem C63_missing_values_refuted : forall (P : pairing Fr) (ks : kzg_settings P) k w n len s fexp m com proof x (ys : list Fr) z c,
  mcl_setup ks k w n len s -> m <= k -> length ys + z = 2 ^ m -> m = 0 \/ 2 ^ (m - 1) < length ys ->
  mcl_check_proof_multi fexp ks com proof x ys c = mcl_check_proof_multi fexp ks com proof x (ys ++ repeat f0 z) c.
Proof. exact @C63_padding_proof. Qed.
Print Assumptions C63_missing_values_refuted.
(** 1 + 2X + 5X^2 at 1 and -1: values 8 and 4, quotient by X^2 - 1 is 5 *)
Example C63_multi_ex :
  match mcl_toy with
  | Ok ks =>
    match mcl_compute_proof_multi mcl_pr5_table ks [fr_of 1; fr_of 2; fr_of 5] (fr_of 1) 2 with
    | Ok pi => val pi = 5%Z /\
        mcl_check_proof_multi (fr_of 3) ks (fr_of 52) pi (fr_of 1) [fr_of 8; fr_of 4] 2 = Ok true /\
        mcl_check_proof_multi (fr_of 3) ks (fr_of 52) pi (fr_of 1) [fr_of 4; fr_of 8] 2 = Ok false /\
        mcl_check_proof_multi (fr_of 3) ks (fr_of 52) pi (fr_of 1) [fr_of 8; fr_of 4] 3 = Err
    | _ => False end
  | _ => False end.
Proof. vm_compute. auto. Qed.

(** ** C64: batch proofs *)

(** settings with scale 3, a setup of eight elements and secret scalar 3 *)
Definition mcl_toy3 : res (kzg_settings (toy_pairing Fr)) :=
  let* fs := fst (mcl_new 100 mcl_pr5_table 3 globals0) in
  let* st := mcl_generate_trusted_setup (P := toy_pairing Fr) 8 (repeat 0 7 ++ [3] ++ repeat 0 24)%Z in
  mcl_kzg_new (fst st) (snd st) 8 fs.

Theorem C64_batch_single : forall (P : pairing Fr) (ks : kzg_settings P) k w n len s m (p : list Fr),
  mcl_setup ks k w n len s -> S m <= k -> S m < 31 -> length p = 2 ^ m ->
  exists fk out, mcl_fk20_single_new ks (2 ^ S m) = Ok fk /\ mcl_fk20_single_da_opt fk p = Ok out /\ length out = 2 ^ S m /\
    (forall i, i < 2 ^ S m -> exists pf, mcl_compute_proof_single ks p (fpow (fpow w (2 ^ (k - S m))) i) = Ok pf /\ nth_error out i = Some pf) /\
    exists rev, mcl_fk20_single_da fk p = Ok rev /\ length rev = 2 ^ S m /\
      forall i, i < 2 ^ S m -> nth_error rev i = nth_error out (bitrev (S m) i).
Proof. exact @C64_single_proof. Qed.
Print Assumptions C64_batch_single.
(** 1 + 2X + 5X^2: the quotient by X - y is 5X + 2 + 5y, so 17 + 5y at 3 *)
Example C64_single_ex :
  match mcl_toy3 with
  | Ok ks => match mcl_fk20_single_new ks 8 with
    | Ok fk => match mcl_fk20_single_da_opt fk [fr_of 1; fr_of 2; fr_of 5; fr_of 0] with
      | Ok out => map val out = map (fun i => (17 + 5 * val (fpow (nth 3 mcl_pr5_table f0) i)) mod r)%Z (seq 0 8)
      | _ => False end
    | _ => False end
  | _ => False end.
Proof. vm_compute. reflexivity. Qed.

(** the optimised call takes the polynomial extended to twice its length; the extension's
    contents do not matter *)
Theorem C64_batch_multi : forall (P : pairing Fr) (ks : kzg_settings P) k w n len s m a (p tail : list Fr),
  mcl_setup ks k w n len s -> S m <= k -> S m < 31 -> a <= m -> length p = 2 ^ m -> length tail = 2 ^ m ->
  exists fk out, mcl_fk20_multi_new ks (2 ^ S m) (2 ^ a) = Ok fk /\ mcl_fk20_multi_da_opt fk (p ++ tail) = Ok out /\
    length out = 2 ^ S (m - a) /\
    (forall i, i < 2 ^ S (m - a) -> exists pf,
       mcl_compute_proof_multi mcl_pr5_table ks p (fpow (fpow w (2 ^ (k - S m))) i) (2 ^ a) = Ok pf /\ nth_error out i = Some pf) /\
    exists rev, mcl_fk20_multi_da fk p = Ok rev /\ length rev = 2 ^ S (m - a) /\
      forall i, i < 2 ^ S (m - a) -> nth_error rev i = nth_error out (bitrev (S (m - a)) i).
Proof. exact @C64_multi_proof. Qed.
Print Assumptions C64_batch_multi.
(** 1 + 2X + 5X^2 + 7X^3 by X^2 - y: the quotient is 7X + 5 for every y *)
Example C64_multi_ex :
  match mcl_toy3 with
  | Ok ks => match mcl_fk20_multi_new ks 8 2 with
    | Ok fk => match mcl_fk20_multi_da fk [fr_of 1; fr_of 2; fr_of 5; fr_of 7] with
      | Ok out => map val out = [26; 26; 26; 26]%Z
      | _ => False end
    | _ => False end
  | _ => False end.
Proof. vm_compute. reflexivity. Qed.

Theorem C64_single_constructor : forall (P : pairing Fr) (ks : kzg_settings P) k w n len s n2, mcl_setup ks k w n len s ->
  (n2 <= 2 ^ k -> (exists m, n2 = 2 ^ S m) -> exists fk, mcl_fk20_single_new ks n2 = Ok fk) /\
  (n2 <> 0 -> ~ (n2 <= 2 ^ k /\ exists m, n2 = 2 ^ S m) -> mcl_fk20_single_new ks n2 = Err) /\
  mcl_fk20_single_new ks 0 = Panic.
Proof. exact @C64_single_new_proof. Qed.
Print Assumptions C64_single_constructor.
Theorem C64_multi_constructor : forall (P : pairing Fr) (ks : kzg_settings P) k w n len s n2 cl, mcl_setup ks k w n len s ->
  (n2 <= 2 ^ k -> (exists m a, n2 = 2 ^ S m /\ cl = 2 ^ a /\ a <= m) -> exists fk, mcl_fk20_multi_new ks n2 cl = Ok fk) /\
  (n2 <> 0 -> cl <> 0 -> ~ (n2 <= 2 ^ k /\ exists m a, n2 = 2 ^ S m /\ cl = 2 ^ a /\ a <= m) -> mcl_fk20_multi_new ks n2 cl = Err) /\
  (n2 = 0 \/ cl = 0 -> mcl_fk20_multi_new ks n2 cl = Panic).
Proof. exact @C64_multi_new_proof. Qed.
Print Assumptions C64_multi_constructor.
Theorem C64_batch_errors : forall (P : pairing Fr) k w n len s (fks : mcl_fk20_single P) (fkm : mcl_fk20_multi P) (p : list Fr),
  (p <> [] -> ~ (length p * 2 <= 2 ^ k /\ exists m, length p = 2 ^ m) ->
    (mcl_setup (mfks_kzg fks) k w n len s -> mcl_fk20_single_da_opt fks p = Err /\ mcl_fk20_single_da fks p = Err) /\
    (mcl_setup (mfkm_kzg fkm) k w n len s -> mcl_fk20_multi_da fkm p = Err)) /\
  mcl_fk20_single_da_opt fks [] = Panic /\ mcl_fk20_single_da fks [] = Panic /\ mcl_fk20_multi_da fkm [] = Panic.
Proof. exact @C64_errors_proof. Qed.
Print Assumptions C64_batch_errors.
(** a polynomial longer than the batch settings were made for: too few elements come back *)
Theorem C64_long_polynomial_refuted : forall (P : pairing Fr) (ks : kzg_settings P) k w n len s m m' fk (p : list Fr),
  mcl_setup ks k w n len s -> m < m' -> S m' <= k -> S m' < 31 ->
  mcl_fk20_single_new ks (2 ^ S m) = Ok fk -> length p = 2 ^ m' ->
  exists out, mcl_fk20_single_da_opt fk p = Ok out /\ length out = 2 ^ S m.
Proof. exact @C64_long_single_proof. Qed.
Print Assumptions C64_long_polynomial_refuted.
Theorem C64_long_polynomial_multi_refuted : forall (P : pairing Fr) (ks : kzg_settings P) k w n len s m m' a fk (p : list Fr),
  mcl_setup ks k w n len s -> a <= m -> m < m' -> S m' <= k -> S m' < 31 ->
  mcl_fk20_multi_new ks (2 ^ S m) (2 ^ a) = Ok fk -> length p = 2 ^ m' -> mcl_fk20_multi_da fk p = Panic.
Proof. exact @C64_long_multi_proof. Qed.
Print Assumptions C64_long_polynomial_multi_refuted.
(** a shorter one is accepted, and the returned elements are not its proofs *)
Theorem C64_short_polynomial_refuted : forall (P : pairing Fr) (ks : kzg_settings P) k w n len s fk (c : Fr),
  mcl_setup ks k w n len s -> 2 <= k -> mcl_fk20_single_new ks 4 = Ok fk ->
  mcl_fk20_single_da_opt fk [c] = Ok [smul c gen1; smul c gen1] /\ forall x, mcl_compute_proof_single ks [c] x = Ok g0.
Proof. exact @C64_short_single_proof. Qed.
Print Assumptions C64_short_polynomial_refuted.
Theorem C64_short_polynomial_multi_refuted : forall (P : pairing Fr) (ks : kzg_settings P) k w n len s m a b fk (p : list Fr),
  mcl_setup ks k w n len s -> S m <= k -> a <= m -> b < a ->
  mcl_fk20_multi_new ks (2 ^ S m) (2 ^ a) = Ok fk -> length p = 2 ^ b -> mcl_fk20_multi_da fk p = Panic.
Proof. exact @C64_short_multi_proof. Qed.
Print Assumptions C64_short_polynomial_multi_refuted.
Example C64_lengths_ex :
  match mcl_toy3 with
  | Ok ks => match mcl_fk20_single_new ks 4, mcl_fk20_multi_new ks 0 1, mcl_fk20_single_new ks 16 with
    | Ok fk, Panic, Err =>
      match mcl_fk20_single_da_opt fk [fr_of 5], mcl_fk20_single_da_opt fk (repeat (fr_of 1) 4), mcl_fk20_single_da_opt fk (repeat (fr_of 1) 3) with
      | Ok out, Ok out', Err => map val out = [5; 5]%Z /\ length out' = 4 | _, _, _ => False end
    | _, _, _ => False end
  | _ => False end.
Proof. vm_compute. auto. Qed.
