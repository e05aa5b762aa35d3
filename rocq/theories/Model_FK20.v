(** * Model_FK20: model of [fk20_proofs.rs], [types/fk20_single_settings.rs] and
    [types/fk20_multi_settings.rs] (crate blst-from-scratch, sequential build) *)
From Coq Require Import List Arith Bool.
From Verif Require Import Base Fld Model_Utils Model_FFT Model_KZG.
Import ListNotations.

Section Toeplitz.
Context {K : fld} {M : gmod K}.

(** fk20_proofs.rs:9-23 [toeplitz_part_1] *)
Definition toeplitz_part_1 (fs : fft_settings K) (x : list M) : res (list M) :=
  let n := length x in
  let n2 := n * 2 in
  let* x_ext := for_range 0 n (fun i e => let* v := idx x i in Ok (e ++ [v])) [] in
  let* x_ext := for_range n n2 (fun _ e => Ok (e ++ [g0])) x_ext in
  unwrap (fft_g1 fs x_ext false).

(** fk20_proofs.rs:26-35 [toeplitz_part_2]; [mul] is scalar multiplication (C45) *)
Definition toeplitz_part_2 (fs : fft_settings K) (poly : list K) (x_ext_fft : list M) : res (list M) :=
  let* coeffs_fft := unwrap (fft_fr fs poly false) in
  for_range 0 (length poly) (fun i ret =>
    let* x := idx x_ext_fft i in
    let* c := idx coeffs_fft i in
    Ok (ret ++ [smul c x])) [].

(** [ret[n..n2].copy_from_slice(&vec![identity; n2 - n])]: panics unless the slice exists *)
Definition clear_range (l : list M) (n n2 : nat) : res (list M) :=
  if (n <=? n2) && (n2 <=? length l) then Ok (firstn n l ++ repeat g0 (n2 - n) ++ skipn n2 l) else Panic.

(** fk20_proofs.rs:37-45 [toeplitz_part_3] *)
Definition toeplitz_part_3 (fs : fft_settings K) (h_ext_fft : list M) : res (list M) :=
  let n2 := length h_ext_fft in
  let n := n2 / 2 in
  let* ret := unwrap (fft_g1 fs h_ext_fft true) in
  clear_range ret n n2.

(** fk20_proofs.rs:49-77 [toeplitz_coeffs_stride]; the final loop runs k2 - (k+2) times *)
Definition toeplitz_coeffs_stride (p : list K) (offset stride : nat) : res (list K) :=
  let n := length p in
  let* k := (if stride =? 0 then Panic else Ok (n / stride)) in
  let k2 := k * 2 in
  let* i := usub n 1 in
  let* i := usub i offset in
  let* c := idx p i in
  let ret := [c] in
  let* num_of_zeroes := (if k + 2 <? k2 then Ok (k + 1) else usub k2 1) in
  let* ret := for_range 0 num_of_zeroes (fun _ ret => Ok (ret ++ [f0])) ret in
  let* j := usub (2 * stride) offset in
  let* j := usub j 1 in
  let* st := while_ (S k2) (fun st : nat * nat * list K => let '(i, _, _) := st in i <? k2)
    (fun st => let '(i, j, ret) := st in
       let* c := idx p j in
       Ok (i + 1, j + stride, ret ++ [c])) (k + 2, j, ret) in
  let '(_, _, ret) := st in Ok ret.

(** fk20_proofs.rs:79-81 [toeplitz_coeffs_step] *)
Definition toeplitz_coeffs_step (p : list K) : res (list K) := toeplitz_coeffs_stride p 0 1.
End Toeplitz.

Section FK20.
Context {K : fld} {P : pairing K}.
Variable table : list K.

(** types/kzg_settings.rs:19-27 [clone] *)
Definition kzg_clone (ks : kzg_settings P) : res (kzg_settings P) :=
  let* fs := fft_settings_clone table (kzg_fs ks) in
  Ok (mkKZG fs (secret_g1 ks) (secret_g2 ks)).

(** types/fk20_single_settings.rs:11-14 *)
Record fk20_single := mkFKS { fks_kzg : kzg_settings P; fks_x_ext_fft : list (PG1 P) }.

(** types/fk20_single_settings.rs:35-63 [new] *)
Definition fk20_single_new (ks : kzg_settings P) (n2 : nat) : res fk20_single :=
  let n := n2 / 2 in
  if max_width (kzg_fs ks) <? n2 then Err
  else if negb (is_pow2 n2) then Err
  else if n2 <? 2 then Err
  else
    let* last := usub n 1 in
    let* x := for_range 0 last (fun i x =>
        let* a := usub n 2 in
        let* a := usub a i in
        let* v := idx (secret_g1 ks) a in
        Ok (x ++ [v])) [] in
    let x := x ++ [g0] in
    let* x_ext_fft := toeplitz_part_1 (kzg_fs ks) x in
    let* ks' := kzg_clone ks in
    Ok (mkFKS ks' x_ext_fft).

(** types/fk20_single_settings.rs:83-107 [data_availability_optimized] *)
Definition fk20_single_da_opt (fk : fk20_single) (p : list K) : res (list (PG1 P)) :=
  let n2 := length p * 2 in
  let fs := kzg_fs (fks_kzg fk) in
  if max_width fs <? n2 then Err
  else if negb (is_pow2 n2) then Err
  else
    let* tc := toeplitz_coeffs_step p in
    let* h_ext_fft := toeplitz_part_2 fs tc (fks_x_ext_fft fk) in
    let* h := toeplitz_part_3 fs h_ext_fft in
    unwrap (fft_g1 fs h false).

(** types/fk20_single_settings.rs:65-81 [data_availability] *)
Definition fk20_single_da (fk : fk20_single) (p : list K) : res (list (PG1 P)) :=
  let n2 := length p * 2 in
  if max_width (kzg_fs (fks_kzg fk)) <? n2 then Err
  else if negb (is_pow2 n2) then Err
  else
    let* ret := unwrap (fk20_single_da_opt fk p) in
    reverse_bit_order ret.

(** types/fk20_multi_settings.rs:11-15 *)
Record fk20_multi := mkFKM { fkm_kzg : kzg_settings P; fkm_chunk_len : nat; fkm_files : list (list (PG1 P)) }.

(** types/fk20_multi_settings.rs:39-94 [new] *)
Definition fk20_multi_new (ks : kzg_settings P) (n2 chunk_len : nat) : res fk20_multi :=
  if max_width (kzg_fs ks) <? n2 then Err
  else if negb (is_pow2 n2) then Err
  else if n2 <? 2 then Err
  else if n2 / 2 <? chunk_len then Err
  else if negb (is_pow2 chunk_len) then Err
  else
    let n := n2 / 2 in
    let k := n / chunk_len in
    let* files := for_range 0 chunk_len (fun offset files =>
        let start := if chunk_len + 1 + offset <=? n then n - chunk_len - 1 - offset else 0 in
        let* st := while_ (S k) (fun st : nat * nat * list (PG1 P) => let '(i, _, _) := st in i + 1 <? k)
          (fun st => let '(i, j, x) := st in
             let* v := idx (secret_g1 ks) j in
             Ok (i + 1, (if chunk_len <=? j then j - chunk_len else 0), x ++ [v])) (0, start, []) in
        let '(_, _, x) := st in
        let x := x ++ [g0] in
        let* f := toeplitz_part_1 (kzg_fs ks) x in
        Ok (files ++ [f])) [] in
    let* ks' := kzg_clone ks in
    Ok (mkFKM ks' chunk_len files).

(** types/fk20_multi_settings.rs:116-153 [data_availability_optimized] *)
Definition fk20_multi_da_opt (fk : fk20_multi) (p : list K) : res (list (PG1 P)) :=
  let n2 := length p * 2 in
  let fs := kzg_fs (fkm_kzg fk) in
  let chunk_len := fkm_chunk_len fk in
  if max_width fs <? n2 then Err
  else if negb (is_pow2 n2) then Err
  else
    let n := n2 / 2 in
    let* k := (if chunk_len =? 0 then Panic else Ok (n / chunk_len)) in
    let k2 := k * 2 in
    let* h_ext_fft := for_range 0 chunk_len (fun i (h : list (PG1 P)) =>
        let* tc := toeplitz_coeffs_stride p i chunk_len in
        let* file := idx (fkm_files fk) i in
        let* hf := toeplitz_part_2 fs tc file in
        for_range 0 k2 (fun j (h : list (PG1 P)) =>
          let* a := idx h j in
          let* b := idx hf j in
          upd h j (gadd a b)) h) (repeat g0 k2) in
    let* h := toeplitz_part_3 fs h_ext_fft in
    let* h := clear_range h k k2 in
    unwrap (fft_g1 fs h false).

(** types/fk20_multi_settings.rs:96-114 [data_availability] *)
Definition fk20_multi_da (fk : fk20_multi) (p : list K) : res (list (PG1 P)) :=
  let n2 := length p * 2 in
  if max_width (kzg_fs (fkm_kzg fk)) <? n2 then Err
  else if negb (is_pow2 n2) then Err
  else
    let* ret := unwrap (fk20_multi_da_opt fk p) in
    reverse_bit_order ret.
End FK20.
Arguments fk20_single {K} P. Arguments mkFKS {K P} _ _.
Arguments fk20_multi {K} P. Arguments mkFKM {K P} _ _ _.
