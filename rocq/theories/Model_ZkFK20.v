(** * Model_ZkFK20: batch proofs of the zkcrypto backend (zkcrypto/src/fk20.rs)

    The settings records have the same fields as in the blst backend (Model_FK20.v). *)
From Coq Require Import List Arith Bool.
From Verif Require Import Base Fld Model_Utils Model_FFT Model_KZG Model_FK20 Model_Zk Model_ZkMsm Model_ZkZero.
Import ListNotations.

Section Toeplitz.
Context {K : fld} {M : gmod K}.

(** fk20.rs:237-252 [toeplitz_part_1] *)
Definition zk_toeplitz_part_1 (x : list M) (fs : fft_settings K) : res (list M) :=
  let n2 := length x * 2 in
  let* x_ext := for_each x (fun x_i e => Ok (e ++ [x_i])) [] in
  let* x_ext := for_range (length x) n2 (fun _ e => Ok (e ++ [g0])) x_ext in
  unwrap (zk_fft_g1 fs x_ext false).

(** fk20.rs:253-264 [toeplitz_part_2] *)
Definition zk_toeplitz_part_2 (toeplitz : list K) (x_ext_fft : list M) (fs : fft_settings K) : res (list M) :=
  let* fft_coeffs := unwrap (zk_fft_fr fs toeplitz false) in
  for_range 0 (length toeplitz) (fun i out =>
    let* x := idx x_ext_fft i in
    let* c := idx fft_coeffs i in
    Ok (out ++ [smul c x])) [].

(** fk20.rs:265-278 [toeplitz_part_3]; [clear_range] (Model_FK20.v) is the slice assignment *)
Definition zk_toeplitz_part_3 (h_ext_fft : list M) (fs : fft_settings K) : res (list M) :=
  let n := length h_ext_fft / 2 in
  let* out := unwrap (zk_fft_g1 fs h_ext_fft true) in
  clear_range out n (length h_ext_fft).

(** fk20.rs:280-303 [toeplitz_coeffs_stride]; [min_u64] is utils.rs:158-160 *)
Definition zk_toeplitz_coeffs_stride (offset stride : nat) (poly : list K) : res (list K) :=
  let n := length poly in
  let* _ := assert (0 <? stride) in
  let k := n / stride in
  let k2 := k * 2 in
  let* i := usub n 1 in
  let* i := usub i offset in
  let* c := idx poly i in
  let out := [c] in
  let* out := for_range 1 (if k + 2 <? k2 then k + 2 else k2) (fun _ out => Ok (out ++ [f0])) out in
  let* j := usub (2 * stride) offset in
  let* j := usub j 1 in
  let* st := for_range (k + 2) k2 (fun _ (st : nat * list K) =>
      let (j, out) := st in
      let* c := idx poly j in
      Ok (j + stride, out ++ [c])) (j, out) in
  Ok (snd st).

(** fk20.rs:305-308 [toeplitz_coeffs_step] *)
Definition zk_toeplitz_coeffs_step (poly : list K) : res (list K) := zk_toeplitz_coeffs_stride 0 1 poly.
End Toeplitz.

(** fk20.rs:310-320 [reverse_bit_order]: the same statements as in the blst backend *)
Definition zk_reverse_bit_order {A} := @reverse_bit_order A.

Section FK20.
Context {K : fld} {P : pairing K}.

(** fk20.rs:33-60 [new]; [is_power_of_two] (utils.rs:109-111) is [is_pow2] *)
Definition zk_fk20_single_new (ks : kzg_settings P) (n : nat) : res (fk20_single P) :=
  let n2 := n / 2 in
  if max_width (kzg_fs ks) <? n then Err
  else if negb (is_pow2 n) then Err
  else if n <? 2 then Err
  else
    let* last := usub n2 1 in
    let* x := for_range 0 last (fun i x =>
        let* a := usub n2 2 in
        let* a := usub a i in
        let* v := idx (secret_g1 ks) a in
        Ok (x ++ [v])) [] in
    let x := x ++ [g0] in
    let* x_ext_fft := zk_toeplitz_part_1 x (kzg_fs ks) in
    Ok (mkFKS ks x_ext_fft).

(** fk20.rs:80-97 [data_availability_optimized] *)
Definition zk_fk20_single_da_opt (fk : fk20_single P) (p : list K) : res (list (PG1 P)) :=
  let n2 := length p * 2 in
  let fs := kzg_fs (fks_kzg fk) in
  if max_width fs <? n2 then Err
  else if negb (is_pow2 n2) then Err
  else
    let* tc := zk_toeplitz_coeffs_step p in
    let* h_ext_fft := zk_toeplitz_part_2 tc (fks_x_ext_fft fk) fs in
    let* h := zk_toeplitz_part_3 h_ext_fft fs in
    unwrap (zk_fft_g1 fs h false).

(** fk20.rs:62-78 [data_availability] *)
Definition zk_fk20_single_da (fk : fk20_single P) (p : list K) : res (list (PG1 P)) :=
  let n2 := length p * 2 in
  if max_width (kzg_fs (fks_kzg fk)) <? n2 then Err
  else if negb (is_pow2 n2) then Err
  else
    let* out := unwrap (zk_fk20_single_da_opt fk p) in
    zk_reverse_bit_order out.

(** fk20.rs:126-179 [new] *)
Definition zk_fk20_multi_new (ks : kzg_settings P) (n chunk_len : nat) : res (fk20_multi P) :=
  if max_width (kzg_fs ks) <? n then Err
  else if negb (is_pow2 n) then Err
  else if n <? 2 then Err
  else if n / 2 <? chunk_len then Err
  else if negb (is_pow2 chunk_len) then Err
  else
    let n2 := n / 2 in
    let k := n2 / chunk_len in
    let* ext_fft_files := for_range 0 chunk_len (fun offset files =>
        let start := if chunk_len + 1 + offset <=? n2 then n2 - chunk_len - 1 - offset else 0 in
        let* st := while_ (S k) (fun st : nat * nat * list (PG1 P) => let '(i, _, _) := st in i + 1 <? k)
          (fun st => let '(i, j, x) := st in
             let* v := idx (secret_g1 ks) j in
             Ok (i + 1, (if chunk_len <=? j then j - chunk_len else 0), x ++ [v])) (0, start, []) in
        let '(_, _, x) := st in
        let x := x ++ [g0] in
        let* f := zk_toeplitz_part_1 x (kzg_fs ks) in
        Ok (files ++ [f])) [] in
    Ok (mkFKM ks chunk_len ext_fft_files).

(** fk20.rs:197-232 [data_availability_optimized] *)
Definition zk_fk20_multi_da_opt (fk : fk20_multi P) (p : list K) : res (list (PG1 P)) :=
  let n2 := length p * 2 in
  let fs := kzg_fs (fkm_kzg fk) in
  let chunk_len := fkm_chunk_len fk in
  if max_width fs <? n2 then Err
  else if negb (is_pow2 n2) then Err
  else
    let n := n2 / 2 in
    let* k := (if chunk_len =? 0 then Panic else Ok (n / chunk_len)) in
    let k2 := k * 2 in
    let* h_ext_fft := for_range 0 chunk_len (fun i (h : list (PG1 P)) =>
        let* tc := zk_toeplitz_coeffs_stride i chunk_len p in
        let* file := idx (fkm_files fk) i in
        let* hf := zk_toeplitz_part_2 tc file fs in
        for_range 0 k2 (fun j (h : list (PG1 P)) =>
          let* a := idx h j in
          let* b := idx hf j in
          upd h j (gadd a b)) h) (repeat g0 k2) in
    let* h := zk_toeplitz_part_3 h_ext_fft fs in
    let* h := clear_range h k k2 in
    unwrap (zk_fft_g1 fs h false).

(** fk20.rs:181-195 [data_availability] *)
Definition zk_fk20_multi_da (fk : fk20_multi P) (p : list K) : res (list (PG1 P)) :=
  let n2 := length p * 2 in
  if max_width (kzg_fs (fkm_kzg fk)) <? n2 then Err
  else if negb (is_pow2 n2) then Err
  else
    let* out := unwrap (zk_fk20_multi_da_opt fk p) in
    zk_reverse_bit_order out.
End FK20.
