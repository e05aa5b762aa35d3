(** * Properties_Ckzg: memory behind the objects of the ckzg crate (C113)

    [careful], [careful_run], [reached], [good_lib] and the words about states are in Spec_Ckzg.v.
    Every theorem quantifies over the library [L] and over programs of any length. *)
From Coq Require Import List Arith Bool ZArith Lia.
From Verif Require Import Base Model_Ckzg Spec_Ckzg Proof_Ckzg Proof_CkzgBad.
Import ListNotations.
Local Open Scope nat_scope.

(** ** programs that take the care the types do not ask for *)
(** no double free, no use after free, no access outside an array *)
Theorem C113_safe : forall (V : Type) (L : clib V), good_lib L ->
  forall p f,
  careful_run L start p -> run L start p <> Fault f.
Proof. exact @careful_safe. Qed.
Print Assumptions C113_safe.
(** once every variable is gone, every array is *)
Theorem C113_no_leak : forall (V : Type) (L : clib V), good_lib L ->
  forall s,
  reached L s -> (forall i o, ~ has s i o) -> all_freed s.
Proof. exact @careful_no_leak. Qed.
Print Assumptions C113_no_leak.
(** a written coefficient is read back, and nothing else has changed *)
Theorem C113_read_back : forall (V : Type) (L : clib V), good_lib L ->
  forall (s : state V) i c n k v,
  reached L s -> has s i (OPoly c n) -> k < n ->
  exists s', step L s (SetCoeff i k v) = Done (s', ONone) /\ step L s' (GetCoeff i k) = Done (s', OVal v) /\
    (forall j m w, (j, m) <> (i, k) -> step L s (GetCoeff j m) = Done (s, OVal w) -> step L s' (GetCoeff j m) = Done (s', OVal w)) /\
    (forall j m w, step L s (RootAt j m) = Done (s, OVal w) -> step L s' (RootAt j m) = Done (s', OVal w)) /\
    (forall j m w, step L s (ReverseAt j m) = Done (s, OVal w) -> step L s' (ReverseAt j m) = Done (s', OVal w)).
Proof. exact @read_back. Qed.
Print Assumptions C113_read_back.
Theorem C113_fresh : forall (V : Type) (L : clib V), good_lib L ->
  forall (s : state V) n,
  cl_poly L n = KzgOk -> 0 < n ->
  exists s', run L s [PolyNew n; GetCoeffs (next s)] = Done (s', [ONone; OVals (cl_poly_cells L n)]).
Proof. exact @fresh_values. Qed.
Print Assumptions C113_fresh.
(** the tables have one entry more than the slices show *)
Theorem C113_tables : forall (V : Type) (L : clib V), good_lib L ->
  forall (s : state V) sc,
  (0 <= sc < 2 ^ 32)%Z -> cl_fft L sc = KzgOk ->
  exists s', step L s (FftNew sc) = Done (s', ONone) /\
    step L s' (Roots (next s)) = Done (s', OVals (firstn (Z.to_nat (2 ^ sc)) (cl_roots L sc))) /\
    step L s' (Reverses (next s)) = Done (s', OVals (firstn (Z.to_nat (2 ^ sc)) (cl_reverse L sc))) /\
    forall k, k <= Z.to_nat (2 ^ sc) -> exists v w,
      nth_error (cl_roots L sc) k = Some v /\ step L s' (RootAt (next s) k) = Done (s', OVal v) /\
      nth_error (cl_reverse L sc) k = Some w /\ step L s' (ReverseAt (next s) k) = Done (s', OVal w).
Proof. exact @table_values. Qed.
Print Assumptions C113_tables.
(** methods of polynomials: the result is what the library computes from the coefficients of the operands, which stay as they were *)
Theorem C113_operations : forall (V : Type) (L : clib V), good_lib L ->
  forall (s : state V) i j a b,
  reached L s -> poly_is L s i a ->
  (forall x, step L s (Eval i x) = Done (s, OVal (cl_eval L a x))) /\
  (forall n, returned L s n (cl_op L PInverse a [] n) (step L s (Inverse i n))) /\
  (i <> j -> poly_is L s j b ->
   returned L s (length a) (cl_op L PLong a b (length a)) (step L s (LongDiv i j)) /\
   returned L s (length a) (cl_op L PFast a b (length a)) (step L s (FastDiv i j)) /\
   (forall n, returned L s n (cl_op L PMul a b n) (step L s (MulDirect i j n))) /\
   match cl_div L a b with
   | (KzgOk, l) => exists s', step L s (Div i j) = Done (s', ONone) /\ poly_is L s' (next s) l /\ polys_kept L s s'
   | _ => step L s (Div i j) = Done (s, OErr)
   end).
Proof. exact @operations. Qed.
Print Assumptions C113_operations.
(** a constructor that fails leaves the state as it was *)
Theorem C113_refusals : forall (V : Type) (L : clib V), good_lib L ->
  forall (s : state V),
  (forall n, cl_poly L n <> KzgOk -> step L s (PolyNew n) = Done (s, OErr)) /\
  (forall sc, cl_fft L (sc mod 2 ^ 32) <> KzgOk -> step L s (FftNew sc) = Done (s, OErr)) /\
  (forall i w e r g1 g2 len, has s i (OFft w e r) -> cl_kzg L w len <> KzgOk -> step L s (KzgNew g1 g2 len i) = Done (s, OErr)) /\
  (forall i j w e r a b n, has s i (OKzg (Var j) a b n) -> has s j (OFft w e r) ->
     (forall n2, cl_single L w n2 <> KzgOk -> step L s (SingleNew i n2) = Done (s, OErr)) /\
     (forall n2 c, cl_multi L w n2 c <> KzgOk -> step L s (MultiNew i n2 c) = Done (s, OErr))).
Proof. exact @refusals. Qed.
Print Assumptions C113_refusals.

(** ** programs the compiler accepts all the same *)
(** a clone of an object that holds memory: the second drop faults, in either order *)
Theorem C113_clone_refuted : forall (V : Type) (L : clib V), good_lib L ->
  forall (s : state V) i o a b,
  reached L s -> has s i o -> has_memory o -> (a = i /\ b = next s \/ a = next s /\ b = i) ->
  exists f, run L s [Clone i; Drop a; Drop b] = Fault f.
Proof. exact @clone_bad. Qed.
Print Assumptions C113_clone_refuted.
(** writing through the clone changes the original *)
Theorem C113_clone_shares_refuted : forall (V : Type) (L : clib V), good_lib L ->
  forall (s : state V) i c n k v,
  reached L s -> has s i (OPoly c n) -> k < n ->
  exists s', run L s [Clone i; SetCoeff (next s) k v; GetCoeff i k] = Done (s', [ONone; ONone; OVal v]).
Proof. exact @clone_shares. Qed.
Print Assumptions C113_clone_shares_refuted.
Theorem C113_default_refuted : forall (V : Type) (L : clib V) (s : state V),
  run L s [PolyDefault; Drop (next s)] = Fault BadFree.
Proof. exact @default_bad. Qed.
Print Assumptions C113_default_refuted.
Theorem C113_bounds_refuted : forall (V : Type) (L : clib V), good_lib L ->
  forall (s : state V) i k,
  reached L s ->
  (forall c n v, has s i (OPoly c n) -> n <= k -> step L s (GetCoeff i k) = Fault BadAccess /\ step L s (SetCoeff i k v) = Fault BadAccess) /\
  (forall w e r, has s i (OFft w e r) -> (w < Z.of_nat k \/ w = 0)%Z -> step L s (RootAt i k) = Fault BadAccess /\ step L s (ReverseAt i k) = Fault BadAccess).
Proof. exact @bounds_bad. Qed.
Print Assumptions C113_bounds_refuted.
(** settings for proofs point at the settings for transforms: using them after a move or a drop *)
Theorem C113_dangling_refuted : forall (V : Type) (L : clib V), good_lib L ->
  forall (s : state V) i w e r g1 g2 len c k,
  reached L s -> has s i (OFft w e r) -> cl_kzg L w len = KzgOk -> len <= g1 -> len <= g2 ->
  c = Move i \/ c = Drop i ->
  run L s [KzgNew g1 g2 len i; c; KzgRootAt (next s) k] = Fault BadAccess /\
  run L s [KzgNew g1 g2 len i; c; UseWidth (next s)] = Fault BadAccess.
Proof. exact @dangling_bad. Qed.
Print Assumptions C113_dangling_refuted.
(** settings for many proofs point at the settings for proofs, and through them at those for transforms *)
Theorem C113_chain_refuted : forall (V : Type) (L : clib V), good_lib L ->
  forall (s : state V) i j w e r a b n c0,
  reached L s -> has s i (OKzg (Var j) a b n) -> has s j (OFft w e r) ->
  (exists n2, c0 = SingleNew i n2 /\ cl_single L w n2 = KzgOk) \/ (exists n2 m, c0 = MultiNew i n2 m /\ cl_multi L w n2 m = KzgOk) ->
  (exists s', run L s [c0; UseWidth (next s)] = Done (s', [ONone; ONone])) /\
  forall k c, k = i \/ k = j -> c = Move k \/ c = Drop k -> run L s [c0; c; UseWidth (next s)] = Fault BadAccess.
Proof. exact @chain_bad. Qed.
Print Assumptions C113_chain_refuted.
(** the slice of a polynomial without coefficients starts at the null pointer *)
Theorem C113_empty_slice_refuted : forall (V : Type) (L : clib V), good_lib L ->
  forall (s : state V),
  cl_poly L 0 = KzgOk -> run L s [PolyNew 0; GetCoeffs (next s)] = Fault BadAccess.
Proof. exact @empty_slice. Qed.
Print Assumptions C113_empty_slice_refuted.
Theorem C113_short_vectors_refuted : forall (V : Type) (L : clib V) (s : state V) i w e r g1 g2 len,
  has s i (OFft w e r) -> cl_kzg L w len = KzgOk -> g1 < len \/ g2 < len ->
  step L s (KzgNew g1 g2 len i) = Fault BadAccess.
Proof. exact @short_bad. Qed.
Print Assumptions C113_short_vectors_refuted.
Theorem C113_default_settings_refuted : forall (V : Type) (L : clib V) (s : state V) k,
  run L s [KzgDefault; KzgRootAt (next s) k] = Fault BadAccess /\ run L s [KzgDefault; UseWidth (next s)] = Fault BadAccess /\
  run L s [SingleDefault; UseWidth (next s)] = Fault BadAccess /\ run L s [MultiDefault; UseWidth (next s)] = Fault BadAccess.
Proof. exact @default_settings_bad. Qed.
Print Assumptions C113_default_settings_refuted.
(** the scale is cut to 32 bits *)
Theorem C113_scale_refuted : forall (V : Type) (L : clib V) (s : state V) sc q,
  step L s (FftNew (sc + q * 2 ^ 32)) = step L s (FftNew sc).
Proof. exact @scale_wraps. Qed.
Print Assumptions C113_scale_refuted.
(** a library that leaves the fields of a failed object alone *)
Theorem C113_failed_constructor_refuted : forall (V : Type) (L' : clib V) (s : state V) n sc,
  (cl_poly L' n <> KzgOk -> cl_poly_left L' n = Expired -> step L' s (PolyNew n) = Fault BadFree) /\
  (cl_fft L' (sc mod 2 ^ 32) <> KzgOk -> (0 < cl_fft_left L' (sc mod 2 ^ 32) < 2 ^ 32)%Z -> step L' s (FftNew sc) = Fault BadFree) /\
  (forall i j a b, i <> j -> poly_is L' s i a -> poly_is L' s j b -> fst (cl_div L' a b) <> KzgOk -> cl_div_left L' a b = Expired ->
     step L' s (Div i j) = Fault BadFree).
Proof. exact @left_bad. Qed.
Print Assumptions C113_failed_constructor_refuted.

(** a library for the examples: polynomials below 9 coefficients, scales below 6; [left] is what a failed division leaves *)
Definition ex_lib_left (left : ptr) : clib nat := CLib
  (fun n => if n <? 9 then KzgOk else KzgMalloc) (fun n => repeat 0 n) (fun _ => Null)
  (fun s => if (s <? 6)%Z then KzgOk else KzgBadArgs)
  (fun s => seq 100 (S (Z.to_nat (2 ^ s)))) (fun s => rev (seq 100 (S (Z.to_nat (2 ^ s))))) (fun _ => 0%Z)
  (fun w n => if (Z.of_nat n <=? w)%Z then KzgOk else KzgBadArgs)
  (fun w n => if (Z.of_nat n <=? w)%Z then KzgOk else KzgBadArgs)
  (fun w n c => if (Z.of_nat n <=? w)%Z && (0 <? c) then KzgOk else KzgBadArgs)
  (fun op a b n => if n =? 5 then (KzgError, []) else (KzgOk, seq (length a + length b) n))
  (fun a b => match b with [] => (KzgBadArgs, []) | _ => (KzgOk, skipn (length b) a) end) (fun _ _ => left) (fun a x => fold_right (fun c y => c + x * y) 0 a).
Definition ex_lib := ex_lib_left Null.
Example C113_ex_lib : good_lib ex_lib.
Proof.
  split; [intros n; apply repeat_length|]. split; [reflexivity|]. split.
  - intros s E. cbn in E. destruct (Z.ltb_spec s 6); [|discriminate]. split; [lia|]. cbn [ex_lib ex_lib_left cl_roots cl_reverse]. rewrite rev_length, !seq_length. auto.
  - split; [intros s _; left; cbn; lia|]. split; [|reflexivity]. intros op a b n l. cbn. destruct (n =? 5); intros [= <-]. apply seq_length.
Qed.
(** one object of each type, a move, a refusal, and drops in an order of the client's choice *)
Definition ex_program : list (cmd nat) :=
  [PolyNew 3; FftNew 3; KzgNew 8 9 8 1; SingleNew 2 8; MultiNew 2 8 2; PolyNew 12; SetCoeff 0 1 7; Move 0; GetCoeffs 5; GetCoeff 5 1; Eval 5 10;
   PolyNew 1; MulDirect 5 6 4; Inverse 5 5; Inverse 5 9; Div 5 6; GetCoeffs 8; PolyNew 0; Div 5 9;
   RootAt 1 8; Roots 1; KzgRootAt 2 0; UseWidth 3; UseWidth 4; Drop 1; Drop 4; Drop 5; Drop 2; Drop 3; Drop 9; Drop 7; Drop 8; Drop 6].
Ltac ex_has := intros; repeat match goal with H : has _ _ _ |- _ => vm_compute in H; try discriminate; injection H; clear H; intros; subst end.
Ltac ex_step := constructor; [|let E := fresh in intros ? ? E; vm_compute in E; injection E as <- <-].
Ltac ex_free := cbn; try exact I; try lia; ex_has; try lia; try (split; lia); try (exists 1, 8%Z, (Heap 1), (Heap 2); repeat split; lia).
Ltac ex_width := cbn; split; [ex_has|];
  intros ks [(x & n & H)|(c & f & n & H)]; vm_compute in H; try discriminate; injection H; intros; subst;
  exists 2, (Var 1), (Heap 3), (Heap 4), 8; split; [reflexivity|]; split; [reflexivity|]; exists 1, 8%Z, (Heap 1), (Heap 2); split; reflexivity.
Example C113_ex : careful_run ex_lib start ex_program /\
  exists s, run ex_lib start ex_program = Done (s, [ONone; ONone; ONone; ONone; ONone; OErr; ONone; ONone; OVals [0; 7; 0]; OVal 7; OVal 70;
    ONone; ONone; OErr; OPanic; ONone; OVals [7; 0]; ONone; OErr; OVal 108; OVals (seq 100 8); OVal 100; ONone; ONone; ONone; ONone; ONone; ONone; ONone; ONone; ONone; ONone; ONone]) /\ (forall i o, ~ has s i o) /\ length (st_heap s) = 13 /\ all_freed s.
Proof.
  split.
  - do 22 (ex_step; [ex_free|]). do 2 (ex_step; [ex_width|]). do 9 (ex_step; [exact I|]). constructor.
  - eexists. split; [vm_compute; reflexivity|]. split; [|split].
    + intros i o H. unfold has in H. cbn in H. do 10 (destruct i as [|i]; [discriminate|]). destruct i; discriminate.
    + reflexivity.
    + intros b k. cbn. do 13 (destruct b as [|b]; [discriminate|]). destruct b; discriminate.
Qed.
(** the programs of the second group, on the same library *)
Example C113_ex_bad : run ex_lib start [PolyNew 3; Clone 0; Drop 0; Drop 1] = Fault BadFree /\ run ex_lib start [MultiDefault; Drop 0; PolyDefault; Drop 1] = Fault BadFree /\
  run ex_lib start [PolyNew 3; GetCoeff 0 3] = Fault BadAccess /\ run ex_lib start [FftNew 3; KzgNew 8 8 8 0; Move 0; KzgRootAt 1 0] = Fault BadAccess /\
  run ex_lib start [FftNew 3; KzgNew 8 7 8 0] = Fault BadAccess /\ run ex_lib start [FftNew 3; KzgNew 8 8 8 0; MultiNew 1 8 2; Clone 2; Drop 3; Drop 2] = Fault BadAccess.
Proof. repeat split; vm_compute; reflexivity. Qed.
Example C113_ex_chain : run ex_lib start [FftNew 3; KzgNew 8 8 8 0; SingleNew 1 8; Drop 1; UseWidth 2] = Fault BadAccess /\
  run ex_lib start [FftNew 3; KzgNew 8 8 8 0; MultiNew 1 8 2; Move 0; UseWidth 2] = Fault BadAccess.
Proof. split; vm_compute; reflexivity. Qed.
Example C113_ex_empty : run ex_lib start [PolyNew 0; GetCoeffs 0] = Fault BadAccess.
Proof. vm_compute. reflexivity. Qed.
Example C113_ex_left : run (ex_lib_left Expired) start [PolyNew 3; PolyNew 0; Div 0 1] = Fault BadFree /\
  exists s, run (ex_lib_left Expired) start [PolyNew 3; PolyNew 0] = Done (s, [ONone; ONone]) /\ poly_is (ex_lib_left Expired) s 0 [0; 0; 0] /\ poly_is (ex_lib_left Expired) s 1 [].
Proof. split; [vm_compute; reflexivity|]. eexists. split; [vm_compute; reflexivity|]. split; (split; [eexists; reflexivity|cbn; intros; try lia; reflexivity]). Qed.
Example C113_ex_reached : exists s, reached ex_lib s /\ has s 0 (OPoly (Heap 0) 3) /\ next s = 1.
Proof.
  eexists. split; [exists [PolyNew 3]; eexists; split; [constructor; [exact I|]; intros; constructor|vm_compute; reflexivity]|]. split; reflexivity.
Qed.
