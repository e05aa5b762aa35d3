(** * Model_ZkWordsFK: transforms of points and batch proofs of the zkcrypto backend on machine words

    zkcrypto/src/fft_g1.rs and fk20.rs once more, with points as the words of their coordinates
    (Model_G1.v) instead of elements of an abstract group (Model_Zk.v, Model_ZkFK20.v). Scalars
    are values as in Model_ZkWords.v; the multiplication of a point gets their limbs ([fr_limbs]).
    [checked] says whether arithmetic overflow panics; a multiplication can panic then. *)
From Coq Require Import List Arith Bool ZArith NArith.
From Verif Require Import Base Fld Zr Model_Scalar Model_Fp Model_Curve Model_G1 Model_Utils Model_FFT Model_FK20 Model_Zk Model_ZkMsm Model_ZkZero Model_ZkFK20 Model_ZkWords.
Import ListNotations.

Section Checked.
Variable checked : bool.

(** ** fft_g1.rs *)
(** fft_g1.rs:58-91 [fft_g1_fast]; [fuel] bounds the depth of the recursion *)
Fixpoint zkw_fft_g1_fast_ (fuel : nat) (ret data : list g1_projective) (stride : nat)
         (roots : list Fr) (roots_stride : nat) : res (list g1_projective) :=
  match fuel with
  | O => NoFuel
  | S fuel' =>
    let split := length ret / 2 in
    if 0 <? split then
      let* lo := zkw_fft_g1_fast_ fuel' (firstn split ret) data (stride * 2) roots (roots_stride * 2) in
      let* data' := slice_from data stride in
      let* hi := zkw_fft_g1_fast_ fuel' (skipn split ret) data' (stride * 2) roots (roots_stride * 2) in
      for_range 0 split (fun i ret =>
        let* y := idx ret (i + split) in
        let* r := idx roots (i * roots_stride) in
        let* y_times_root := zkw_g1_mul checked y (fr_limbs r) in
        let* x := idx ret i in
        let* ret := upd ret (i + split) (zkw_g1_sub x y_times_root) in
        let* x := idx ret i in
        upd ret i (zkw_g1_add_or_dbl x y_times_root)) (lo ++ hi)
    else
      let* d := idx data 0 in
      upd ret 0 d
  end.
Definition zkw_fft_g1_fast (ret data : list g1_projective) (stride : nat) (roots : list Fr) (roots_stride : nat) :=
  zkw_fft_g1_fast_ (S (length ret)) ret data stride roots roots_stride.

(** fft_g1.rs:26-55 [fft_g1]; the default point (kzg_types.rs:109-111) is the identity, overwritten before it is read *)
Definition zkw_fft_g1 (s : fft_settings Fr) (data : list g1_projective) (inverse : bool) : res (list g1_projective) :=
  if max_width s <? length data then Err
  else if negb (zk_is_pow2 (length data)) then Err
  else
    let stride := max_width s / length data in
    let ret := repeat zkw_g1_identity (length data) in
    let roots := if inverse then reverse_roots s else expanded_roots s in
    let* ret := zkw_fft_g1_fast ret data 1 roots stride in
    if inverse then
      let* inv_len := zkf_inverse (fnat (length data)) in
      let* front := for_each (firstn (length data) ret) (fun f out =>
          let* v := zkw_g1_mul checked f (fr_limbs inv_len) in Ok (out ++ [v])) [] in
      Ok (front ++ skipn (length data) ret)
    else Ok ret.

(** fft_g1.rs:7-22 [fft_g1_slow] *)
Definition zkw_fft_g1_slow (ret data : list g1_projective) (stride : nat) (roots : list Fr) (roots_stride : nat) : res (list g1_projective) :=
  for_range 0 (length data) (fun i ret =>
    let* d := idx data 0 in
    let* r := idx roots 0 in
    let* v := zkw_g1_mul checked d (fr_limbs r) in
    let* ret := upd ret i v in
    for_range 1 (length data) (fun j ret =>
      let* d := idx data (j * stride) in
      let* r := idx roots (((i * j) mod length data) * roots_stride) in
      let* v := zkw_g1_mul checked d (fr_limbs r) in
      let* x := idx ret i in
      upd ret i (zkw_g1_add_or_dbl x v)) ret) ret.

(** ** fk20.rs *)
(** fk20.rs:237-252 [toeplitz_part_1] *)
Definition zkw_toeplitz_part_1 (x : list g1_projective) (fs : fft_settings Fr) : res (list g1_projective) :=
  let n2 := length x * 2 in
  let* x_ext := for_each x (fun x_i e => Ok (e ++ [x_i])) [] in
  let* x_ext := for_range (length x) n2 (fun _ e => Ok (e ++ [zkw_g1_identity])) x_ext in
  unwrap (zkw_fft_g1 fs x_ext false).

(** fk20.rs:253-264 [toeplitz_part_2] *)
Definition zkw_toeplitz_part_2 (toeplitz : list Fr) (x_ext_fft : list g1_projective) (fs : fft_settings Fr) : res (list g1_projective) :=
  let* fft_coeffs := unwrap (zk_fft_fr fs toeplitz false) in
  for_range 0 (length toeplitz) (fun i out =>
    let* x := idx x_ext_fft i in
    let* c := idx fft_coeffs i in
    let* v := zkw_g1_mul checked x (fr_limbs c) in
    Ok (out ++ [v])) [].

(** the slice assignment [out[n..n2].copy_from_slice] of fk20.rs:227 and 275 *)
Definition zkw_clear_range (l : list g1_projective) (n n2 : nat) : res (list g1_projective) :=
  if (n <=? n2) && (n2 <=? length l) then Ok (firstn n l ++ repeat zkw_g1_identity (n2 - n) ++ skipn n2 l) else Panic.

(** fk20.rs:265-278 [toeplitz_part_3] *)
Definition zkw_toeplitz_part_3 (h_ext_fft : list g1_projective) (fs : fft_settings Fr) : res (list g1_projective) :=
  let n := length h_ext_fft / 2 in
  let* out := unwrap (zkw_fft_g1 fs h_ext_fft true) in
  zkw_clear_range out n (length h_ext_fft).

(** fk20.rs:9-12 [ZkFK20SingleSettings] and 100-104 [ZkFK20MultiSettings] *)
Record zkw_single := mkZkwS { zkws_kzg : zkw_settings; zkws_x_ext_fft : list g1_projective }.
Record zkw_multi := mkZkwM { zkwm_kzg : zkw_settings; zkwm_chunk_len : nat; zkwm_files : list (list g1_projective) }.

(** fk20.rs:33-60 [new] *)
Definition zkw_fk20_single_new (ks : zkw_settings) (n : nat) : res zkw_single :=
  let n2 := n / 2 in
  if max_width (zkw_fs ks) <? n then Err
  else if negb (is_pow2 n) then Err
  else if n <? 2 then Err
  else
    let* last := usub n2 1 in
    let* x := for_range 0 last (fun i x =>
        let* a := usub n2 2 in
        let* a := usub a i in
        let* v := idx (zkw_secret_g1 ks) a in
        Ok (x ++ [v])) [] in
    let x := x ++ [zkw_g1_identity] in
    let* x_ext_fft := zkw_toeplitz_part_1 x (zkw_fs ks) in
    Ok (mkZkwS ks x_ext_fft).

(** fk20.rs:80-97 [data_availability_optimized] *)
Definition zkw_fk20_single_da_opt (fk : zkw_single) (p : list Fr) : res (list g1_projective) :=
  let n2 := length p * 2 in
  let fs := zkw_fs (zkws_kzg fk) in
  if max_width fs <? n2 then Err
  else if negb (is_pow2 n2) then Err
  else
    let* tc := zk_toeplitz_coeffs_step p in
    let* h_ext_fft := zkw_toeplitz_part_2 tc (zkws_x_ext_fft fk) fs in
    let* h := zkw_toeplitz_part_3 h_ext_fft fs in
    unwrap (zkw_fft_g1 fs h false).

(** fk20.rs:62-78 [data_availability] *)
Definition zkw_fk20_single_da (fk : zkw_single) (p : list Fr) : res (list g1_projective) :=
  let n2 := length p * 2 in
  if max_width (zkw_fs (zkws_kzg fk)) <? n2 then Err
  else if negb (is_pow2 n2) then Err
  else
    let* out := unwrap (zkw_fk20_single_da_opt fk p) in
    zk_reverse_bit_order out.

(** fk20.rs:126-179 [new] *)
Definition zkw_fk20_multi_new (ks : zkw_settings) (n chunk_len : nat) : res zkw_multi :=
  if max_width (zkw_fs ks) <? n then Err
  else if negb (is_pow2 n) then Err
  else if n <? 2 then Err
  else if n / 2 <? chunk_len then Err
  else if negb (is_pow2 chunk_len) then Err
  else
    let n2 := n / 2 in
    let k := n2 / chunk_len in
    let* ext_fft_files := for_range 0 chunk_len (fun offset files =>
        let start := if chunk_len + 1 + offset <=? n2 then n2 - chunk_len - 1 - offset else 0 in
        let* st := while_ (S k) (fun st : nat * nat * list g1_projective => let '(i, _, _) := st in i + 1 <? k)
          (fun st => let '(i, j, x) := st in
             let* v := idx (zkw_secret_g1 ks) j in
             Ok (i + 1, (if chunk_len <=? j then j - chunk_len else 0), x ++ [v])) (0, start, []) in
        let '(_, _, x) := st in
        let x := x ++ [zkw_g1_identity] in
        let* f := zkw_toeplitz_part_1 x (zkw_fs ks) in
        Ok (files ++ [f])) [] in
    Ok (mkZkwM ks chunk_len ext_fft_files).

(** fk20.rs:197-232 [data_availability_optimized] *)
Definition zkw_fk20_multi_da_opt (fk : zkw_multi) (p : list Fr) : res (list g1_projective) :=
  let n2 := length p * 2 in
  let fs := zkw_fs (zkwm_kzg fk) in
  let chunk_len := zkwm_chunk_len fk in
  if max_width fs <? n2 then Err
  else if negb (is_pow2 n2) then Err
  else
    let n := n2 / 2 in
    let* k := (if chunk_len =? 0 then Panic else Ok (n / chunk_len)) in
    let k2 := k * 2 in
    let* h_ext_fft := for_range 0 chunk_len (fun i (h : list g1_projective) =>
        let* tc := zk_toeplitz_coeffs_stride i chunk_len p in
        let* file := idx (zkwm_files fk) i in
        let* hf := zkw_toeplitz_part_2 tc file fs in
        for_range 0 k2 (fun j (h : list g1_projective) =>
          let* a := idx h j in
          let* b := idx hf j in
          upd h j (zkw_g1_add_or_dbl a b)) h) (repeat zkw_g1_identity k2) in
    let* h := zkw_toeplitz_part_3 h_ext_fft fs in
    let* h := zkw_clear_range h k k2 in
    unwrap (zkw_fft_g1 fs h false).

(** fk20.rs:181-195 [data_availability] *)
Definition zkw_fk20_multi_da (fk : zkw_multi) (p : list Fr) : res (list g1_projective) :=
  let n2 := length p * 2 in
  if max_width (zkw_fs (zkwm_kzg fk)) <? n2 then Err
  else if negb (is_pow2 n2) then Err
  else
    let* out := unwrap (zkw_fk20_multi_da_opt fk p) in
    zk_reverse_bit_order out.
End Checked.
