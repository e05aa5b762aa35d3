(** * Model_Defaults: the settings objects made by [default()], and the accessors of the settings

    Four crates: [blst-from-scratch], [mcl-kzg/kzg], [zkcrypto], [Arkworks].  The default of
    Arkworks' [KZGSettings] (kzg_proofs.rs:332-342) draws parameters from a test generator; only
    its transform settings, the part its FK20 objects read, are modelled.  The objects of
    [ckzg] are in [Model_Ckzg]. *)
From Coq Require Import List Arith Bool NArith.
From Verif Require Import Base Fld Zr Model_FFT Model_KZG Model_FK20 Model_Mcl Model_MclKZG Model_Zk Model_Ark.
Import ListNotations.

Section Transforms.
Context {K : fld}.
(** blst-from-scratch types/fft_settings.rs:14-16 [default] *)
Definition blst_fft_default (table : list K) : res (fft_settings K) := unwrap (fft_settings_new table 0).
(** mcl-kzg/kzg fk20_fft.rs:153-155 and trait_implementations/fft_settings.rs:6-8 [default]:
    [new(0)], which may assign the statics *)
Definition mcl_fft_default (fuel : nat) (pr5 : list K) (g : globals K) : res (fft_settings K) * globals K := mcl_new fuel pr5 0 g.

(** the accessors, the same statements in all four: blst types/fft_settings.rs:43-61, mcl
    trait_implementations/fft_settings.rs:15-33, zkcrypto fftsettings.rs:209-227, Arkworks kzg_types.rs:372-390,
    and blst types/kzg_settings.rs:179-181 *)
Definition get_max_width (s : fft_settings K) : nat := max_width s.
Definition get_expanded_roots_of_unity_at (s : fft_settings K) (i : nat) : res K := idx (expanded_roots s) i.
Definition get_expanded_roots_of_unity (s : fft_settings K) : list K := expanded_roots s.
Definition get_reverse_roots_of_unity_at (s : fft_settings K) (i : nat) : res K := idx (reverse_roots s) i.
Definition get_reversed_roots_of_unity (s : fft_settings K) : list K := reverse_roots s.
End Transforms.

Section Proofs.
Context {K : fld} {P : pairing K}.
(** blst types/kzg_settings.rs:30-36, mcl kzg_settings.rs:14-19 with kzg10.rs:609-623 [Curve::default],
    zkcrypto kzg_proofs.rs:32-49 and kzg_types.rs:232-234: no points, over the default transform settings *)
Definition kzg_default (fs : fft_settings K) : kzg_settings P := mkKZG fs [] [].
(** blst types/fk20_single_settings.rs:28-33, zkcrypto fk20.rs:25-31, Arkworks fk20_proofs.rs:39-45 *)
Definition fk20_single_default (fs : fft_settings K) : fk20_single P := mkFKS (kzg_default fs) [].
(** blst types/fk20_multi_settings.rs:30-36, zkcrypto fk20.rs:117-123: [chunk_len] is 1 *)
Definition fk20_multi_default (fs : fft_settings K) : fk20_multi P := mkFKM (kzg_default fs) 1 [].
(** Arkworks fk20_proofs.rs:99-106: [chunk_len] is 0 *)
Definition ark_fk20_multi_default (fs : fft_settings K) : fk20_multi P := mkFKM (kzg_default fs) 0 [].
(** mcl fk20_matrix.rs:82-87 *)
Definition mcl_fk20_single_default (fs : fft_settings K) : mcl_fk20_single P := mkMFKS (kzg_default fs) [].
(** mcl fk20_matrix.rs:133-139 *)
Definition mcl_fk20_multi_default (fs : fft_settings K) : mcl_fk20_multi P := mkMFKM [] 1 (kzg_default fs).
End Proofs.
