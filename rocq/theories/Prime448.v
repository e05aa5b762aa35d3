(** * Prime448: the largest prime factor of the cofactor of the second group, with its chain of
    Pocklington certificates *)
From Coq Require Import ZArith Znumtheory Lia List Bool.
From Verif Require Import Base Fermat Zp.
Local Open Scope Z_scope.

Lemma prime_541 : prime 541.
Proof. apply (small_prime _ 23); [lia|vm_compute; reflexivity|lia]. Qed.
Lemma prime_1367711 : prime 1367711.
Proof. apply (small_prime _ 1169); [lia|vm_compute; reflexivity|lia]. Qed.
Definition c1 : Z := 12192593745179.
Lemma c1_prime : prime c1.
Proof.
  apply (prime_of_large_factors c1 (1367711 * 541)); [reflexivity..|].
  intros q Pq Dq.
  assert (D1 : (1367711 ^ 1 | q - 1)).
  { apply (pocklington_step c1 q 1367711 0 2 ((c1 - 1) / 1367711)); [reflexivity|exact Pq|exact Dq|exact prime_1367711|vm_compute; reflexivity..]. }
  assert (D2 : (541 ^ 1 | q - 1)).
  { apply (pocklington_step c1 q 541 0 2 ((c1 - 1) / 541)); [reflexivity|exact Pq|exact Dq|exact prime_541|vm_compute; reflexivity..]. }
  rewrite Z.pow_1_r in D1, D2. destruct D2 as [k Ek]. rewrite Ek in *.
  apply Z.mul_divide_mono_r. apply (Z.gauss _ 541 k); [now rewrite Z.mul_comm|reflexivity].
Qed.
Definition c2 : Z := 512088937297519.
Lemma c2_prime : prime c2.
Proof. apply (pocklington_one _ c1 2 42); [reflexivity|exact c1_prime|vm_compute; reflexivity..]. Qed.
Definition c3 : Z := 1857858664515398933.
Lemma c3_prime : prime c3.
Proof. apply (pocklington_one _ c2 2 3628); [reflexivity|exact c2_prime|vm_compute; reflexivity..]. Qed.
Definition c4 : Z := 22294303974184787197.
Lemma c4_prime : prime c4.
Proof. apply (pocklington_one _ c3 2 12); [reflexivity|exact c3_prime|vm_compute; reflexivity..]. Qed.
Definition c5 : Z := 19931107752921199754119.
Lemma c5_prime : prime c5.
Proof. apply (pocklington_one _ c4 2 894); [reflexivity|exact c4_prime|vm_compute; reflexivity..]. Qed.
Definition c6 : Z := 81162125843606155545104998607900118769099783.
Lemma c6_prime : prime c6.
Proof. apply (pocklington_one _ c5 2 4072133212551150901578); [reflexivity|exact c5_prime|vm_compute; reflexivity..]. Qed.
Definition c7 : Z := 26935696298915610574513298451669528361624243820491956655650666425177.
Lemma c7_prime : prime c7.
Proof. apply (pocklington_one _ c6 2 331875194481953911837672); [reflexivity|exact c6_prime|vm_compute; reflexivity..]. Qed.
Definition c8 : Z := 4638704574076146691498289350639807119782054683906549022985642612861209609656189848749536921852444848596916990932297.
Lemma c8_prime : prime c8.
Proof. apply (pocklington_one _ c7 2 172214021222941014338396330402661971150362189448); [reflexivity|exact c7_prime|vm_compute; reflexivity..]. Qed.
Definition c9 : Z := 402096035359507321594726366720466575392706800671181159425656785868777272553337714697862511267018014931937703598282857976535744623203249.
Lemma c9_prime : prime c9.
Proof. apply (pocklington_one _ c8 2 86682828996409959984); [reflexivity|exact c8_prime|vm_compute; reflexivity..]. Qed.
(** the factor itself *)
Definition p448 : Z := c9.
Theorem p448_prime : prime p448.
Proof. exact c9_prime. Qed.
