(** * Proof_AgreeEx: settings of the four backends that exist side by side *)
From Coq Require Import List Arith Lia Bool ZArith NArith.
From Verif Require Import Base Fld Poly Model_FFT Spec Proof_FFT Zr ZrTables Proof_FFTFr Model_Zk Proof_Zk Proof_ZkFr Model_Ark Spec_Ark Proof_Ark Proof_ArkFr.
From Verif Require Import Model_Mcl Spec_Mcl Proof_MclFr Model_KZG Spec_KZG Proof_KZGFr Model_ZkKZG Spec_ZkKZG Proof_ZkKZG Model_ArkKZG Spec_ArkKZG Proof_ArkKZG.
From Verif Require Import Model_MclKZG Spec_MclKZG Proof_MclKZGFr Properties_ArkKZG Spec_Agree Proof_Agree.
Import ListNotations.

Lemma ex_made k s : k < 7 -> fft_settings_new blst_table k = Ok s -> mcl_made s k (root k).
Proof.
  intros Hk B. assert (U : as_u8 (N.of_nat k) = k). { unfold as_u8. rewrite N.mod_small by lia. apply Nat2N.id. }
  assert (M : mcl_made s k (nth k mcl_pr7_table f0)).
  { right. exists (2 ^ k), globals0, (N.of_nat k). split; [rewrite C56_agree_proof by auto; exact B|]. split; [now rewrite U|reflexivity]. }
  destruct (mcl_made_ok _ _ _ M) as (_ & S). destruct (new_inv _ _ B) as (_ & S').
  destruct S as (_ & _ & A & _), S' as (_ & _ & A' & _). rewrite A in A'. rewrite A' in M. exact M.
Qed.
Lemma ex_transforms W k : lib_root W -> k < 7 -> exists sb sz sa sm, transforms W k (root k) sb sz sa sm.
Proof.
  intros HW Hk. destruct (new_ok k) as (s & B & _); [lia|]. exists s, s, s, s. split; [exact B|].
  split; [pose proof (zk_new_blst k); congruence|]. split; [pose proof (anew W HW k); congruence|]. now apply ex_made.
Qed.
Definition ex_bytes : list Z := (3 :: repeat 0 31)%Z.
Definition ex_mcl_bytes : list Z := (repeat 0 7 ++ [3] ++ repeat 0 24)%Z.
Lemma ex_mcl_secret : mcl_from_scalar ex_mcl_bytes = Ok (fr_of 3).
Proof.
  destruct (C62_scalar_proof ex_mcl_bytes eq_refl) as (H & _).
  { intros b Hb. cbn in Hb. repeat (destruct Hb as [<-|Hb]; [lia|]). destruct Hb. }
  destruct H as (x & E & V); [reflexivity|]. rewrite E. f_equal. apply val_inj. rewrite V. reflexivity.
Qed.
Lemma ex_setups k : k < 7 -> 2 ^ k <= 64 -> exists kb kz ka km, setups ark_toy k (root k) 64 (fr_of 3) kb kz ka km.
Proof.
  intros Hk H64. destruct (new_ok k) as (s & B & _); [lia|].
  destruct (api_exists (P := toy_pairing Fr) k 64 64 ex_bytes ltac:(lia) ltac:(lia)) as (kb & KB).
  assert (EZ : zk_fft_settings_new zk_table k = Ok s) by (pose proof (zk_new_blst k); congruence).
  destruct (zk_setup_exists (P := toy_pairing Fr) k 64 64 ex_bytes s EZ) as (sg1 & sg2 & kz & _ & _ & KZ & _); [reflexivity|].
  assert (V : le_value ex_bytes = 3%Z) by reflexivity. unfold fr_from_scalar in KB. rewrite V in KB, KZ.
  destruct (made_exists ark_toy ark_W_root k 64 [] (g0, mkLimbs 0 0 0 0 0 0) [] ltac:(lia)) as (fs & ka & _ & _ & KA & _).
  destruct (mcl_setup_exists (P := toy_pairing Fr) s k (root k) 64 64 ex_mcl_bytes (fr_of 3) (ex_made k s Hk B) ltac:(lia) ex_mcl_secret) as (km & KM & _).
  change (ark_made ark_toy ka k 64 (fr_of 3)) in KA.
  exists kb, kz, ka, km. split; [exists 64, 64; split; [exact KB|lia]|]. split; [exists 64; split; [exact KZ|lia]|].
  split; [exists 64; split; [exact KA|apply Nat.le_refl]|]. exists 64, 64. split; [exact KM|lia].
Qed.
