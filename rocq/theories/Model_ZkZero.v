(** * Model_ZkZero: model of [zero_poly.rs] and [recover.rs] of the zkcrypto backend,
    sequential build *)
From Coq Require Import List Arith Bool.
From Verif Require Import Base Fld Model_Utils Model_FFT Model_ZeroPoly Model_Recovery Model_Zk.
Import ListNotations.

Section Model.
Context {K : fld}.

(** zero_poly.rs:25-49 [do_zero_poly_mul_partial]: the same statements as in
    blst-from-scratch ([neg_di] is kept in a variable instead of being read back) *)
Definition zk_zero_step (s : fft_settings K) (indices : list nat) (stride i : nat) (poly : list K) : res (list K) :=
  let* k := idx indices i in
  let* w := idx (expanded_roots s) (k * stride) in
  let neg_di := fneg w in
  let* poly := upd poly i neg_di in
  let* x := idx poly i in
  let* y := idx poly (i - 1) in
  let* poly := upd poly i (fadd x y) in
  let* poly := zero_inner neg_di i poly in
  let* x := idx poly 0 in
  upd poly 0 (fmul x neg_di).

Definition zk_zero_partial (s : fft_settings K) (indices : list nat) (stride : nat) : res (list K) :=
  if length indices =? 0 then Err
  else
    let poly := repeat f1 (length indices + 1) in
    let* k := idx indices 0 in
    let* w := idx (expanded_roots s) (k * stride) in
    let* poly := upd poly 0 (fneg w) in
    for_range 1 (length indices) (zk_zero_step s indices stride) poly.

(** zero_poly.rs:51-86 [reduce_partials]: the degree is added up before the length is
    checked, the padding truncates and the transforms are unwrapped *)
Definition zk_reduce_partials (s : fft_settings K) (length_ : nat) (partials : list (list K)) : res (list K) :=
  let* out_degree := for_range 0 (length partials) (fun i d =>
      let* p := idx partials i in
      let* l := usub (length p) 1 in
      Ok (d + l)) 0 in
  if negb (zk_is_pow2 length_) then Err
  else if length_ <? out_degree + 1 then Err
  else
    let* p0 := idx partials 0 in
    let* p_padded := zk_pad p0 length_ in
    let* ev := unwrap (zk_fft_fr s p_padded false) in
    let* ev := for_range 1 (length partials) (fun i ev =>
        let* p := idx partials i in
        let* p_padded := zk_pad p length_ in
        let* e := unwrap (zk_fft_fr s p_padded false) in
        for_range 0 length_ (fun j ev =>
          let* x := idx ev j in
          let* y := idx e j in
          upd ev j (fmul x y)) ev) ev in
    let* coeffs := unwrap (zk_fft_fr s ev true) in
    slice coeffs 0 (out_degree + 1).

(** zero_poly.rs:127-142: construction of the partial polynomials *)
Definition zk_zp_partials (s : fft_settings K) (missing : list nat) (stride count : nat) (work : list K)
  : res (list K * list nat * list nat) :=
  let* st := for_range 0 count (fun _ (st : list K * list nat * list nat * nat * nat) =>
      let '(work, lens, offsets, offset, out_offset) := st in
      let e := Nat.min (offset + 63) (length missing) in
      let* sl := slice missing offset e in
      let* partial := zk_zero_partial s sl stride in
      let* partial := zk_pad partial 64 in
      let* work := splice work out_offset (out_offset + 64) partial in
      Ok (work, lens ++ [64], offsets ++ [out_offset], offset + 63, out_offset + 64))
    (work, [], [], 0, 0) in
  let '(work, lens, offsets, _, _) := st in
  Ok (work, lens, offsets).

(** zero_poly.rs:152-179: reduction of group [i]; the views (158-165) are the same
    statements *)
Definition zk_zp_group (s : fft_settings K) (domain ceiling count size i : nat)
  (st : list K * list nat * list nat) : res (list K * list nat * list nat) :=
  let '(work, lens, offsets) := st in
  let start := i * 4 in
  let out_end := Nat.min ((start + 4) * size) ceiling in
  let* d := usub out_end (start * size) in
  let reduced_len := Nat.min d domain in
  let* rest := usub count start in
  let num := Nat.min 4 rest in
  let* offsets := upd offsets i (start * size) in
  let* ov := zp_views work lens size i start num offsets in
  let (offsets, pv) := ov in
  if 1 <? num then
    let* red := zk_reduce_partials s reduced_len pv in
    let* lens := upd lens i (length red) in
    let* red := zk_pad red (size * num) in
    let* o := idx offsets i in
    let* work := splice work o (o + length red) red in
    Ok (work, lens, offsets)
  else
    let* l := idx lens start in
    let* lens := upd lens i l in
    Ok (work, lens, offsets).

(** zero_poly.rs:148-182: one level of the reduction tree *)
Definition zk_zp_level (s : fft_settings K) (domain ceiling : nat)
  (st : nat * (list K * list nat * list nat)) : res (nat * (list K * list nat * list nat)) :=
  let (count, wlo) := st in
  let reduced_count := 1 + (count - 1) / 4 in
  let '(_, lens, _) := wlo in
  let* l0 := idx lens 0 in
  let* size := std_next_pow2 l0 in
  let* wlo := for_range 0 reduced_count (zk_zp_group s domain ceiling count size) wlo in
  Ok (reduced_count, wlo).

(** zero_poly.rs:117-185: the branch for more than 63 missing indices *)
Definition zk_zp_tree (s : fft_settings K) (domain ceiling count stride : nat) (missing : list nat) : res (list K) :=
  let* wlen := std_next_pow2 (count * 64) in
  let* wlo := zk_zp_partials s missing stride count (repeat f0 wlen) in
  let '(work, lens, offsets) := wlo in
  let* l := usub (1 + length missing) ((count - 1) * 63) in
  let* c1 := usub count 1 in
  let* lens := upd lens c1 l in
  let* st := while_ (S count) (fun st => 1 <? fst st) (zk_zp_level s domain ceiling) (count, (work, lens, offsets)) in
  let '(_, (work, _, _)) := st in
  Ok work.

(** zero_poly.rs:88-194 [zero_poly_via_multiplication] *)
Definition zk_zero_poly (s : fft_settings K) (length_ : nat) (missing : list nat)
  : res (list K * list K) :=
  if length missing =? 0 then Ok ([], [])
  else if length_ <=? length missing then Err
  else if max_width s <? length_ then Err
  else if negb (std_is_pow2 length_) then Err
  else
    let stride := max_width s / length_ in
    let count := (63 + length missing - 1) / 63 in
    let* next_pow := std_next_pow2 (count * 64) in
    let ceiling := Nat.min next_pow length_ in
    let* zero_poly :=
      if length missing <=? 63 then unwrap (zk_zero_partial s missing stride)
      else zk_zp_tree s length_ ceiling count stride missing in
    let* zero_poly :=
      if length zero_poly <? length_ then zk_pad zero_poly length_
      else if length_ <? length zero_poly then slice zero_poly 0 length_
      else Ok zero_poly in
    let* zero_eval := zk_fft_fr s zero_poly false in
    Ok (zero_eval, zero_poly).

(** recover.rs:47-54 and 79-86 (sequential build): the loop of [scale_poly] and
    [unscale_poly] *)
Definition zk_apply_powers (c : K) (p : list K) : res (list K) :=
  let* st := for_range 1 (length p) (fun i (st : list K * K) =>
      let (p, factor_power) := st in
      let factor_power := fmul factor_power c in
      let* x := idx p i in
      let* p := upd p i (fmul x factor_power) in
      Ok (p, factor_power)) (p, f1) in
  Ok (fst st).

(** recover.rs:15-55 [scale_poly] (SCALE_FACTOR = 5, recover.rs:7) *)
Definition zk_scale_poly (p : list K) : res (list K) :=
  let* inv_factor := zkf_inverse (fnat 5) in
  zk_apply_powers inv_factor p.

(** recover.rs:58-87 [unscale_poly] *)
Definition zk_unscale_poly (p : list K) : res (list K) := zk_apply_powers (fnat 5) p.

(** recover.rs:117 and 168-186: from the values of [E * Z] to the recovered values *)
Definition zk_recover_core (s : fft_settings K) (n : nat) (evals zero_poly : list K) : res (list K) :=
  let* poly_with_zero := unwrap (zk_fft_fr s evals true) in
  let* scaled_poly_with_zero := zk_scale_poly poly_with_zero in
  let* scaled_zero_poly := zk_scale_poly zero_poly in
  let* ev1 := unwrap (zk_fft_fr s scaled_poly_with_zero false) in
  let* ev2 := unwrap (zk_fft_fr s scaled_zero_poly false) in
  let* evr := for_range 0 n (fun i l =>
      let* a := idx ev1 i in
      let* b := idx ev2 i in
      let* q := unwrap (zkf_div a b) in
      upd l i q) ev1 in
  let* scaled := unwrap (zk_fft_fr s evr true) in
  let* poly := zk_unscale_poly scaled in
  unwrap (zk_fft_fr s poly false).

Definition zk_is_none {A} (o : option A) : bool := match o with None => true | Some _ => false end.

(** recover.rs:90-193 [recover_poly_from_samples]; the first check loop visits the values
    that exist (103: [enumerate().take(n)]), then every sample is combined (109-115) *)
Definition zk_recover (s : fft_settings K) (samples : list (option K)) : res (list K) :=
  let n := length samples in
  let* _ := assert (std_is_pow2 n) in
  let missing := missing_positions zk_is_none samples in
  let* z := unwrap (zk_zero_poly s n missing) in
  let (zero_eval, zero_poly) := z in
  let* _ := for_range 0 (Nat.min (length zero_eval) n) (fun i _ =>
      let* item := idx zero_eval i in
      let* sm := idx samples i in
      assert (Bool.eqb (zk_is_none sm) (feqb item f0))) tt in
  let* evals := for_range 0 n (fun i l =>
      let* sm := idx samples i in
      match sm with
      | None => upd l i f0
      | Some v => let* ze := idx zero_eval i in upd l i (fmul v ze)
      end) (repeat f0 n) in
  let* out := zk_recover_core s n evals zero_poly in
  let* _ := for_range 0 n (fun i _ =>
      let* sm := idx samples i in
      match sm with
      | None => Ok tt
      | Some v => let* d := idx out i in assert (feqb d v)
      end) tt in
  Ok out.

End Model.
