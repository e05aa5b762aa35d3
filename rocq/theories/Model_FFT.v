(** * Model_FFT: model of [types/fft_settings.rs], [fft_fr.rs] and [fft_g1.rs]

    Crate [blst-from-scratch].  [K] is the scalar field, [M] the group G1 seen as a
    module over [K] (the point operations [add]/[sub]/[mul] of the blst library are
    represented by the module operations).  The table [SCALE2_ROOT_OF_UNITY] is a
    parameter [table]; its concrete value is in [Tables.v] and [Zr.v]. *)
From Coq Require Import List Arith Bool NArith.
From Verif Require Import Base Fld Model_Utils.
Import ListNotations.

Section Model.
Context {K : fld}.

(** types/fft_settings.rs:6-11 [FsFFTSettings] *)
Record fft_settings := mkFS {
  max_width : nat;
  root_of_unity : K;
  expanded_roots : list K;
  reverse_roots : list K
}.

(** types/fft_settings.rs:76-88 [expand_root_of_unity].  The Rust loop returns [Err]
    as soon as the vector is longer than [width], so [width + 2] iterations suffice. *)
Definition expand_root_of_unity (root : K) (width : nat) : res (list K) :=
  while_ (width + 2) (fun l => negb (feqb (last l f0) f1))
    (fun l => if width <? length l then Err else Ok (l ++ [fmul (last l f0) root]))
    [f1; root].

(** types/fft_settings.rs:19-41 [FsFFTSettings::new] *)
Definition fft_settings_new (table : list K) (scale : nat) : res fft_settings :=
  if length table <=? scale then Err else
  let max_width := 2 ^ scale in
  let* root := idx table scale in
  let* expanded := unwrap (expand_root_of_unity root max_width) in
  Ok (mkFS max_width root expanded (rev expanded)).

(** types/fft_settings.rs:64-73 [clone]: copies every field over a fresh object *)
Definition fft_settings_clone (table : list K) (s : fft_settings) : res fft_settings :=
  let* o := unwrap (fft_settings_new table 0) in
  Ok (mkFS (max_width s) (root_of_unity s) (expanded_roots s) (reverse_roots s)).

(** fft_fr.rs:8-56 [fft_fr_fast], sequential build ([not(feature = "parallel")]).
    The two mutable sub-slices are passed and glued back. *)
Fixpoint fft_fr_fast_ (fuel : nat) (ret data : list K) (stride : nat)
         (roots : list K) (roots_stride : nat) : res (list K) :=
  match fuel with
  | O => NoFuel
  | S fuel' =>
    let half := length ret / 2 in
    if 0 <? half then
      let* lo := fft_fr_fast_ fuel' (firstn half ret) data (stride * 2) roots (roots_stride * 2) in
      let* data' := slice_from data stride in
      let* hi := fft_fr_fast_ fuel' (skipn half ret) data' (stride * 2) roots (roots_stride * 2) in
      for_range 0 half (fun i ret =>
        let* y := idx ret (i + half) in
        let* r := idx roots (i * roots_stride) in
        let y_times_root := fmul y r in
        let* x := idx ret i in
        let* ret := upd ret (i + half) (fsub x y_times_root) in
        let* x := idx ret i in
        upd ret i (fadd x y_times_root)) (lo ++ hi)
    else
      let* d := idx data 0 in
      upd ret 0 d
  end.

Definition fft_fr_fast (ret data : list K) (stride : nat) (roots : list K) (roots_stride : nat) :=
  fft_fr_fast_ (S (length ret)) ret data stride roots roots_stride.

(** fft_fr.rs:60-89 [fft_fr].  [FsFr::default()] is the zero limb array. *)
Definition fft_fr (s : fft_settings) (data : list K) (inverse : bool) : res (list K) :=
  if max_width s <? length data then Err
  else if negb (is_pow2 (length data)) then Err
  else
    let stride := max_width s / length data in
    let ret := repeat f0 (length data) in
    let roots := if inverse then reverse_roots s else expanded_roots s in
    let* ret := fft_fr_fast ret data 1 roots stride in
    if inverse then
      let inv_fr_len := finv (fnat (length data)) in
      let* _ := slice ret 0 (length data) in
      Ok (map (fun f => fmul f inv_fr_len) ret)
    else Ok ret.

(** fft_fr.rs:93-111 [fft_fr_slow] *)
Definition fft_fr_slow (ret data : list K) (stride : nat) (roots : list K) (roots_stride : nat) : res (list K) :=
  for_range 0 (length data) (fun i ret =>
    let* d := idx data 0 in
    let* r := idx roots 0 in
    let* ret := upd ret i (fmul d r) in
    for_range 1 (length data) (fun j ret =>
      let* d := idx data (j * stride) in
      let* r := idx roots (((i * j) mod length data) * roots_stride) in
      let v := fmul d r in
      let* x := idx ret i in
      upd ret i (fadd x v)) ret) ret.

Section G1.
Context {M : gmod K}.

(** fft_g1.rs:8-57 [fft_g1_fast], sequential build *)
Fixpoint fft_g1_fast_ (fuel : nat) (ret data : list M) (stride : nat)
         (roots : list K) (roots_stride : nat) : res (list M) :=
  match fuel with
  | O => NoFuel
  | S fuel' =>
    let half := length ret / 2 in
    if 0 <? half then
      let* lo := fft_g1_fast_ fuel' (firstn half ret) data (stride * 2) roots (roots_stride * 2) in
      let* data' := slice_from data stride in
      let* hi := fft_g1_fast_ fuel' (skipn half ret) data' (stride * 2) roots (roots_stride * 2) in
      for_range 0 half (fun i ret =>
        let* y := idx ret (i + half) in
        let* r := idx roots (i * roots_stride) in
        let y_times_root := smul r y in
        let* x := idx ret i in
        let* ret := upd ret (i + half) (gsub x y_times_root) in
        let* x := idx ret i in
        upd ret i (gadd x y_times_root)) (lo ++ hi)
    else
      let* d := idx data 0 in
      upd ret 0 d
  end.

Definition fft_g1_fast (ret data : list M) (stride : nat) (roots : list K) (roots_stride : nat) :=
  fft_g1_fast_ (S (length ret)) ret data stride roots roots_stride.

(** fft_g1.rs:60-86 [fft_g1].  [FsG1::default()] is the (all-zero) identity; its
    value is overwritten before being read. *)
Definition fft_g1 (s : fft_settings) (data : list M) (inverse : bool) : res (list M) :=
  if max_width s <? length data then Err
  else if negb (is_pow2 (length data)) then Err
  else
    let stride := max_width s / length data in
    let ret := repeat g0 (length data) in
    let roots := if inverse then reverse_roots s else expanded_roots s in
    let* ret := fft_g1_fast ret data 1 roots stride in
    if inverse then
      let inv_fr_len := finv (fnat (length data)) in
      let* _ := slice ret 0 (length data) in
      Ok (map (fun f => smul inv_fr_len f) ret)
    else Ok ret.

(** fft_g1.rs:90-108 [fft_g1_slow] *)
Definition fft_g1_slow (ret data : list M) (stride : nat) (roots : list K) (roots_stride : nat) : res (list M) :=
  for_range 0 (length data) (fun i ret =>
    let* d := idx data 0 in
    let* r := idx roots 0 in
    let* ret := upd ret i (smul r d) in
    for_range 1 (length data) (fun j ret =>
      let* d := idx data (j * stride) in
      let* r := idx roots (((i * j) mod length data) * roots_stride) in
      let v := smul r d in
      let* x := idx ret i in
      upd ret i (gadd x v)) ret) ret.

End G1.
End Model.
Arguments fft_settings : clear implicits.
