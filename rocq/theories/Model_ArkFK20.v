(** * Model_ArkFK20: batch proofs of the Arkworks backend (Arkworks/src/fk20_proofs.rs)

    The batch settings keep default KZG settings in which only the transform settings are
    replaced (lines 66-67, 161-162); [mkKZG fs [] []] stands for them, and the remaining
    fields are never read.  The records are those of the blst backend (Model_FK20.v). *)
From Coq Require Import List Arith Bool.
From Verif Require Import Base Fld Model_Utils Model_FFT Model_KZG Model_FK20 Model_Zk Zr Model_Ark Model_ArkKZG.
Import ListNotations.

(** fk20_proofs.rs:26-36 [reverse_bit_order]: the same statements as in the blst backend *)
Definition ark_reverse_bit_order {A} := @reverse_bit_order A.

Section Toeplitz.
Context {M : gmod Fr}.
Variable W : Fr.

(** fk20_proofs.rs:313-325 [toeplitz_part_1] *)
Definition ark_toeplitz_part_1 (x : list M) (fs : fft_settings Fr) : res (list M) :=
  let n := length x in
  let n2 := n * 2 in
  let* x_ext := for_range 0 n (fun i e => let* v := idx x i in Ok (e ++ [v])) [] in
  let* x_ext := for_range n n2 (fun _ e => Ok (e ++ [g0])) x_ext in
  ark_fft_g1 fs x_ext false.

(** fk20_proofs.rs:327-336 [toeplitz_part_2] *)
Definition ark_toeplitz_part_2 (tc : list Fr) (x_ext_fft : list M) (fs : fft_settings Fr) : res (list M) :=
  let* tf := unwrap (ark_fft_fr W fs tc false) in
  for_range 0 (length tc) (fun i out =>
    let* x := idx x_ext_fft i in
    let* c := idx tf i in
    Ok (out ++ [smul c x])) [].

(** [for i in v.iter_mut().take(b).skip(a) { i = identity }] *)
Definition ark_clear (l : list M) (a b : nat) : list M :=
  firstn a l ++ repeat g0 (Nat.min b (length l) - a) ++ skipn (Nat.max a (Nat.min b (length l))) l.

(** fk20_proofs.rs:338-353 [toeplitz_part_3] *)
Definition ark_toeplitz_part_3 (h_ext_fft : list M) (fs : fft_settings Fr) : res (list M) :=
  let n := length h_ext_fft / 2 in
  let* out := unwrap (ark_fft_g1 fs h_ext_fft true) in
  Ok (ark_clear out n (length h_ext_fft)).

(** fk20_proofs.rs:284-311 [toeplitz_coeffs_stride] *)
Definition ark_toeplitz_coeffs_stride (poly : list Fr) (offset stride outlen : nat) : res (list Fr) :=
  let n := length poly in
  if stride =? 0 then Err
  else
    let k := n / stride in
    let k2 := k * 2 in
    if outlen <? k2 then Err
    else
      let out := repeat f0 outlen in
      let* a := usub n 1 in
      let* a := usub a offset in
      let* c := idx poly a in
      let* out := upd out 0 c in
      let* st := while_ (S k2) (fun st : nat * list Fr => (fst st <=? k + 1) && (fst st <? k2))
          (fun st => let (i, out) := st in let* out := upd out i f0 in Ok (i + 1, out)) (1, out) in
      let out := snd st in
      let* j := usub (2 * stride) offset in
      let* j := usub j 1 in
      let* st := for_range (k + 2) k2 (fun i (st : nat * list Fr) =>
          let (j, out) := st in
          let* c := idx poly j in
          let* out := upd out i c in
          Ok (j + stride, out)) (j, out) in
      Ok (snd st).

(** fk20_proofs.rs:280-282 [toeplitz_coeffs_step] *)
Definition ark_toeplitz_coeffs_step (p : list Fr) (outlen : nat) : res (list Fr) := ark_toeplitz_coeffs_stride p 0 1 outlen.
End Toeplitz.

Section FK20.
Context {P : pairing Fr}.
Variable W : Fr.

(** fk20_proofs.rs:47-75 [new] *)
Definition ark_fk20_single_new (ks : ark_kzg P) (n2 : nat) : res (fk20_single P) :=
  let n := n2 / 2 in
  if max_width (ak_fs ks) <? n2 then Err
  else if negb (std_is_pow2 n2) then Err
  else if n2 <? 2 then Err
  else
    let* last := usub n 1 in
    let* x := for_range 0 last (fun i x =>
        let* a := usub n 2 in
        let* a := usub a i in
        let* v := idx (ak_g1 ks) a in
        Ok (x ++ [fst v])) [] in
    let x := x ++ [g0] in
    let* fs := ark_settings_clone W (ak_fs ks) in
    let* x_ext_fft := unwrap (ark_toeplitz_part_1 x (ak_fs ks)) in
    Ok (mkFKS (mkKZG fs [] []) x_ext_fft).

(** fk20_proofs.rs:202-221 [fk20_single_da_opt], also [data_availability_optimized] *)
Definition ark_fk20_single_da_opt (fk : fk20_single P) (p : list Fr) : res (list (PG1 P)) :=
  let n := length p in
  let n2 := n * 2 in
  let fs := kzg_fs (fks_kzg fk) in
  if max_width fs <? n2 then Err
  else if negb (std_is_pow2 n) then Err
  else
    let outlen := 2 * length p in
    let* tc := unwrap (ark_toeplitz_coeffs_step p outlen) in
    let* h_ext_fft := unwrap (ark_toeplitz_part_2 W tc (fks_x_ext_fft fk) fs) in
    let* h := unwrap (ark_toeplitz_part_3 h_ext_fft fs) in
    ark_fft_g1 fs h false.

(** fk20_proofs.rs:77-91 [data_availability] *)
Definition ark_fk20_single_da (fk : fk20_single P) (p : list Fr) : res (list (PG1 P)) :=
  let n := length p in
  let n2 := n * 2 in
  if max_width (kzg_fs (fks_kzg fk)) <? n2 then Err
  else if negb (std_is_pow2 n) then Err
  else
    let* out := unwrap (ark_fk20_single_da_opt fk p) in
    ark_reverse_bit_order out.

(** fk20_proofs.rs:108-173 [new]; the check for a zero chunk length comes after the one for
    powers of two *)
Definition ark_fk20_multi_new (ks : ark_kzg P) (n2 chunk_len : nat) : res (fk20_multi P) :=
  if max_width (ak_fs ks) <? n2 then Err
  else if negb (std_is_pow2 n2) then Err
  else if n2 <? 2 then Err
  else if n2 / 2 <? chunk_len then Err
  else if negb (std_is_pow2 chunk_len) then Err
  else if chunk_len =? 0 then Err
  else
    let n := n2 / 2 in
    let k := n / chunk_len in
    let* files := for_range 0 chunk_len (fun offset files =>
        let x := repeat g0 k in
        let start := if chunk_len + 1 + offset <=? n then n - chunk_len - 1 - offset else 0 in
        let* last := usub k 1 in
        let* st := for_range 0 last (fun i (st : nat * list (PG1 P)) =>
            let (j, x) := st in
            let* v := idx (ak_g1 ks) j in
            let* x := upd x i (fst v) in
            Ok ((if chunk_len <=? j then j - chunk_len else 0), x)) (start, x) in
        let* x := upd (snd st) last g0 in
        let* f := unwrap (ark_toeplitz_part_1 x (ak_fs ks)) in
        Ok (files ++ [f])) [] in
    let* fs := ark_settings_clone W (ak_fs ks) in
    Ok (mkFKM (mkKZG fs [] []) chunk_len files).

(** fk20_proofs.rs:223-278 [fk20_multi_da_opt], also [data_availability_optimized] *)
Definition ark_fk20_multi_da_opt (fk : fk20_multi P) (p : list Fr) : res (list (PG1 P)) :=
  let n := length p in
  let n2 := n * 2 in
  let fs := kzg_fs (fkm_kzg fk) in
  let chunk_len := fkm_chunk_len fk in
  if max_width fs <? n2 then Err
  else if negb (std_is_pow2 n) then Err
  else
    let n := n2 / 2 in
    let* k := (if chunk_len =? 0 then Panic else Ok (n / chunk_len)) in
    let k2 := k * 2 in
    let* h_ext_fft := for_range 0 k2 (fun _ h => Ok (h ++ [g0])) [] in
    let toeplitz_coeffs := repeat f0 (n2 / chunk_len) in
    let* st := for_range 0 chunk_len (fun i (st : list Fr * list (PG1 P)) =>
        let (tc, h) := st in
        let* tc := unwrap (ark_toeplitz_coeffs_stride p i chunk_len (length tc)) in
        let* file := idx (fkm_files fk) i in
        let* hf := unwrap (ark_toeplitz_part_2 W tc file fs) in
        let* h := for_range 0 k2 (fun j (h : list (PG1 P)) =>
          let* a := idx h j in
          let* b := idx hf j in
          upd h j (gadd a b)) h in
        Ok (tc, h)) (toeplitz_coeffs, h_ext_fft) in
    let* h := unwrap (ark_toeplitz_part_3 (snd st) fs) in
    let h := ark_clear h k k2 in
    ark_fft_g1 fs h false.

(** fk20_proofs.rs:175-195 [data_availability] *)
Definition ark_fk20_multi_da (fk : fk20_multi P) (p : list Fr) : res (list (PG1 P)) :=
  let n := length p in
  let n2 := n * 2 in
  if max_width (kzg_fs (fkm_kzg fk)) <? n2 then Err
  else if negb (std_is_pow2 n) then Err
  else
    let* out := unwrap (ark_fk20_multi_da_opt fk p) in
    ark_reverse_bit_order out.
End FK20.
