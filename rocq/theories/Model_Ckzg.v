(** * Model_Ckzg: the objects of the ckzg crate, the memory they hold and what a client program does with them

    ckzg binds to a C library whose source is not in the repository.  Its five object types hold raw
    pointers.  The Rust side is modelled statement by statement; a C function is modelled by what its
    callers rely on: a constructor either allocates the arrays of the object or fails, a [free_...]
    function frees them.  The choices of the library are the parameters of [clib].
    A client is a sequence of calls of public methods of the crate ([cmd]), each on variables that
    hold objects.  The compiler rejects the use of a variable that is empty or of another type
    ([Reject]); everything else compiles, because no method carries a lifetime or is marked unsafe.
    Undefined behaviour is an outcome of its own ([Fault]). *)
From Coq Require Import List Arith Bool ZArith.
From Verif Require Import Base.
Import ListNotations.

(** ** memory *)
(** [Expired]: the address of a temporary of a function that has returned, as in [&mut Fr::default()]
    (ckzg/src/poly.rs:30, fftsettings.rs:43-44, kzgsettings.rs:39-41, fk20settings.rs:43-44, 93) *)
Inductive ptr := Null | Expired | Heap (b : nat).
Inductive fault := BadFree | BadAccess.
Inductive out (A : Type) := Done (a : A) | Fault (f : fault) | Reject.
Arguments Done {A}. Arguments Fault {A}. Arguments Reject {A}.
Definition obind {A B} (m : out A) (k : A -> out B) : out B :=
  match m with Done a => k a | Fault f => Fault f | Reject => Reject end.
Notation "'do' x <- m ; k" := (obind m (fun x => k)) (at level 200, x pattern, m at level 100, k at level 200, right associativity).

(** ckzg/src/consts.rs:6-11 [KzgRet] *)
Inductive kzg_ret := KzgOk | KzgBadArgs | KzgError | KzgMalloc.

Section Mem.
Context {V : Type}.
(** an array on the heap: field elements, points (only counted), or pointers *)
Inductive block := BFr (l : list V) | BPts (n : nat) | BPtrs (l : list ptr).
Definition heap := list (option block).
Definition entries (b : block) : nat := match b with BFr l => length l | BPts n => n | BPtrs l => length l end.
(** the library's allocation: no memory for an array without entries *)
Definition h_alloc (h : heap) (b : block) : heap * ptr :=
  if entries b =? 0 then (h, Null) else (h ++ [Some b], Heap (length h)).
(** [free] *)
Definition h_free (h : heap) (p : ptr) : out heap :=
  match p with
  | Null => Done h
  | Expired => Fault BadFree
  | Heap b => match nth_error h b with Some (Some _) => Done (set h b None) | _ => Fault BadFree end
  end.
Definition h_block (h : heap) (p : ptr) : out block :=
  match p with Heap b => match nth_error h b with Some (Some k) => Done k | _ => Fault BadAccess end | _ => Fault BadAccess end.
(** [*p.add(k)] read and written *)
Definition h_read (h : heap) (p : ptr) (k : nat) : out V :=
  do b <- h_block h p;
  match b with BFr l => match nth_error l k with Some v => Done v | None => Fault BadAccess end | _ => Fault BadAccess end.
Definition h_write (h : heap) (p : ptr) (k : nat) (v : V) : out heap :=
  do b <- h_block h p;
  match b, p with
  | BFr l, Heap i => if k <? length l then Done (set h i (Some (BFr (set l k v)))) else Fault BadAccess
  | _, _ => Fault BadAccess
  end.
(** [slice::from_raw_parts(p, n)]: the pointer must not be null, and must be valid for [n] entries *)
Definition h_slice (h : heap) (p : ptr) (n : nat) : out (list V) :=
  match p, n with
  | Null, _ => Fault BadAccess
  | _, O => Done []
  | _, _ => do b <- h_block h p;
            match b with BFr l => if n <=? length l then Done (firstn n l) else Fault BadAccess | _ => Fault BadAccess end
  end.
Definition h_read_ptr (h : heap) (p : ptr) (k : nat) : out ptr :=
  do b <- h_block h p;
  match b with BPtrs l => match nth_error l k with Some v => Done v | None => Fault BadAccess end | _ => Fault BadAccess end.

(** ** objects *)
(** a pointer to another object: to an expired temporary, or to the object of a variable *)
Inductive oref := Temp | Var (i : nat).
Inductive obj :=
| OPoly (coeffs : ptr) (len : nat)                                  (* ckzg/src/poly.rs:20-25 [KzgPoly] *)
| OFft (width : Z) (expanded reverse : ptr)                         (* fftsettings.rs:8-15 [KzgFFTSettings] *)
| OKzg (fs : oref) (g1 g2 : ptr) (len : nat)                        (* kzgsettings.rs:27-34 [KzgKZGSettings] *)
| OSingle (ks : oref) (x_ext_fft : ptr) (len : nat)                 (* fk20settings.rs:23-29 [KzgFK20SingleSettings] *)
| OMulti (ks : oref) (chunk_len : nat) (files : ptr) (len : nat).   (* fk20settings.rs:31-38 [KzgFK20MultiSettings] *)

(** [default] of the five: poly.rs:28-33, fftsettings.rs:39-46, kzgsettings.rs:37-44, fk20settings.rs:41-47, 91-98 *)
Definition poly_default : obj := OPoly Expired 0.
Definition fft_default : obj := OFft 0 Expired Expired.
Definition kzg_default : obj := OKzg Temp Expired Expired 0.
Definition single_default : obj := OSingle Temp Expired 0.
Definition multi_default : obj := OMulti Temp 0 Null 0.

(** the operations whose result is a polynomial of a size fixed beforehand *)
Inductive pop := PInverse | PLong | PFast | PMul.
(** what the bindings leave to the C library *)
Record clib := CLib {
  cl_poly : nat -> kzg_ret;               (* [new_poly] for a length *)
  cl_poly_cells : nat -> list V;          (* what the fresh array holds *)
  cl_poly_left : nat -> ptr;              (* the pointer in the object after a failure *)
  cl_fft : Z -> kzg_ret;                  (* [new_fft_settings] for a scale *)
  cl_roots : Z -> list V;                 (* the two tables *)
  cl_reverse : Z -> list V;
  cl_fft_left : Z -> Z;                   (* the width in the object after a failure *)
  cl_kzg : Z -> nat -> kzg_ret;           (* [new_kzg_settings] for the width of the transforms and a length *)
  cl_single : Z -> nat -> kzg_ret;        (* [new_fk20_single_settings] for that width and a size *)
  cl_multi : Z -> nat -> nat -> kzg_ret;  (* [new_fk20_multi_settings] for that width, a size and a chunk length *)
  cl_op : pop -> list V -> list V -> nat -> kzg_ret * list V;   (* [poly_inverse], [poly_long_div], [poly_fast_div], [poly_mul]: operands, size *)
  cl_div : list V -> list V -> kzg_ret * list V;                (* [new_poly_div] *)
  cl_div_left : list V -> list V -> ptr;                        (* the pointer in the object after a failure *)
  cl_eval : list V -> V -> V                                    (* [eval_poly] *)
}.
Variable L : clib.

(** ** destructors *)
Definition free_files (h : heap) (files : ptr) (n : nat) : out heap :=
  (fix go k i h := match k with
                   | O => Done h
                   | S k' => do p <- h_read_ptr h files i; do h <- h_free h p; go k' (S i) h
                   end) n O h.
(** [drop]: poly.rs:134-140, fftsettings.rs:85-93, kzgsettings.rs:113-121, fk20settings.rs:80-88, 131-139 *)
Definition drop_obj (h : heap) (o : obj) : out heap :=
  match o with
  | OPoly c _ => h_free h c
  | OFft w e r => if ((0 <? w) && (w <? 2 ^ 32))%Z then (do h <- h_free h e; h_free h r) else Done h
  | OKzg _ a b n => if 0 <? n then (do h <- h_free h a; h_free h b) else Done h
  | OSingle _ x n => if 0 <? n then h_free h x else Done h
  | OMulti _ c f n => if (0 <? n) || (0 <? c) then (do h <- free_files h f c; h_free h f) else Done h
  end.

(** ** client programs *)
Inductive cmd :=
| PolyNew (n : nat) | FftNew (scale : Z) | KzgNew (g1 g2 len : nat) (fs : nat)   (* [g1], [g2]: lengths of the two vectors *)
| SingleNew (ks n2 : nat) | MultiNew (ks n2 chunk_len : nat)
| PolyDefault | FftDefault | KzgDefault | SingleDefault | MultiDefault
| Clone (i : nat) | Move (i : nat) | Drop (i : nat)
| GetCoeff (i k : nat) | SetCoeff (i k : nat) (v : V) | GetCoeffs (i : nat)
| RootAt (i k : nat) | ReverseAt (i k : nat) | Roots (i : nat) | Reverses (i : nat)
| KzgRootAt (i k : nat)
| Eval (i : nat) (x : V) | Inverse (i n : nat) | LongDiv (i j : nat) | FastDiv (i j : nat) | MulDirect (i j n : nat) | Div (i j : nat)
| UseWidth (i : nat).   (* any method of settings for proofs that makes the library read the settings for transforms *)
Inductive obs := ONone | OErr | OPanic | OVal (v : V) | OVals (l : list V).
Record state := St { st_heap : heap; st_vars : list (option obj) }.

Definition var (s : state) (i : nat) : out obj := match nth_error (st_vars s) i with Some (Some o) => Done o | _ => Reject end.
(** following a pointer to an object *)
Definition deref (s : state) (r : oref) : out obj :=
  match r with Temp => Fault BadAccess | Var i => match nth_error (st_vars s) i with Some (Some o) => Done o | _ => Fault BadAccess end end.
Definition deref_fft (s : state) (r : oref) : out (Z * ptr) :=
  do o <- deref s r; match o with OFft w e _ => Done (w, e) | _ => Fault BadAccess end.
Definition deref_kzg (s : state) (r : oref) : out oref :=
  do o <- deref s r; match o with OKzg fs _ _ _ => Done fs | _ => Fault BadAccess end.
Definition push (h : heap) (vs : list (option obj)) (o : obj) : state := St h (vs ++ [Some o]).
(** an error: the object made so far is dropped and its variable was never visible *)
Definition fail (s : state) (o : obj) : out (state * obs) :=
  do h <- drop_obj (st_heap s) o; Done (St h (st_vars s), OErr).
(** the panic of an [unwrap] of the same error *)
Definition fail_panic (s : state) (o : obj) : out (state * obs) := do (s, _) <- fail s o; Done (s, OPanic).
(** the library reads the coefficients of an operand *)
Definition coeffs_of (h : heap) (c : ptr) (n : nat) : out (list V) := match n with O => Done [] | _ => h_slice h c n end.
(** the operand in a variable; the receiver is borrowed mutably, so it cannot be the argument too *)
Definition poly_var (s : state) (i : nat) : out (list V) :=
  do o <- var s i; match o with OPoly c n => coeffs_of (st_heap s) c n | _ => Reject end.
Definition two_polys (s : state) (i j : nat) : out (list V * list V) :=
  if i =? j then Reject else (do a <- poly_var s i; do b <- poly_var s j; Done (a, b)).
(** a polynomial of [n] coefficients is made and the library fills it, or fails and it is dropped *)
Definition fill (s : state) (n : nat) (r : kzg_ret * list V) : out (state * obs) :=
  match cl_poly L n with
  | KzgOk =>
    match r with
    | (KzgOk, l) => let '(h, p) := h_alloc (st_heap s) (BFr l) in Done (push h (st_vars s) (OPoly p n), ONone)
    | _ => let '(h, p) := h_alloc (st_heap s) (BFr (cl_poly_cells L n)) in fail (St h (st_vars s)) (OPoly p n)
    end
  | _ => fail_panic s (OPoly (cl_poly_left L n) 0)
  end.
Fixpoint alloc_files (h : heap) (k n : nat) : heap * list ptr :=
  match k with
  | O => (h, [])
  | S k' => let '(h, p) := h_alloc h (BPts n) in let '(h, l) := alloc_files h k' n in (h, p :: l)
  end.

Definition step (s : state) (c : cmd) : out (state * obs) :=
  let h := st_heap s in let vs := st_vars s in
  match c with
  (* poly.rs:35-43 [new] *)
  | PolyNew n =>
    match cl_poly L n with
    | KzgOk => let '(h, p) := h_alloc h (BFr (cl_poly_cells L n)) in Done (push h vs (OPoly p n), ONone)
    | _ => fail s (OPoly (cl_poly_left L n) 0)
    end
  (* fftsettings.rs:48-56 [new]: [scale as u32] *)
  | FftNew scale =>
    let sc := (scale mod 2 ^ 32)%Z in
    match cl_fft L sc with
    | KzgOk => let '(h, e) := h_alloc h (BFr (cl_roots L sc)) in
               let '(h, r) := h_alloc h (BFr (cl_reverse L sc)) in
               Done (push h vs (OFft (2 ^ sc) e r), ONone)
    | _ => fail s (OFft (cl_fft_left L sc) Expired Expired)
    end
  (* kzgsettings.rs:46-54 [new]: the library copies [len] entries of both vectors *)
  | KzgNew n1 n2 len i =>
    do o <- var s i;
    match o with
    | OFft w _ _ =>
      match cl_kzg L w len with
      | KzgOk => if (len <=? n1) && (len <=? n2) then
                   let '(h, a) := h_alloc h (BPts len) in
                   let '(h, b) := h_alloc h (BPts len) in
                   Done (push h vs (OKzg (Var i) a b len), ONone)
                 else Fault BadAccess
      | _ => fail s kzg_default
      end
    | _ => Reject
    end
  (* fk20settings.rs:49-57 [new] *)
  | SingleNew i n2 =>
    do o <- var s i;
    match o with
    | OKzg fs _ _ _ =>
      do (w, _) <- deref_fft s fs;
      match cl_single L w n2 with
      | KzgOk => let '(h, x) := h_alloc h (BPts n2) in Done (push h vs (OSingle (Var i) x n2), ONone)
      | _ => fail s single_default
      end
    | _ => Reject
    end
  (* fk20settings.rs:100-108 [new] *)
  | MultiNew i n2 chunk_len =>
    do o <- var s i;
    match o with
    | OKzg fs _ _ _ =>
      do (w, _) <- deref_fft s fs;
      match cl_multi L w n2 chunk_len with
      | KzgOk => let '(h, files) := alloc_files h chunk_len (2 * (n2 / 2 / chunk_len)) in
                 let '(h, f) := h_alloc h (BPtrs files) in
                 Done (push h vs (OMulti (Var i) chunk_len f (n2 / 2)), ONone)
      | _ => fail s multi_default
      end
    | _ => Reject
    end
  | PolyDefault => Done (push h vs poly_default, ONone)
  | FftDefault => Done (push h vs fft_default, ONone)
  | KzgDefault => Done (push h vs kzg_default, ONone)
  | SingleDefault => Done (push h vs single_default, ONone)
  | MultiDefault => Done (push h vs multi_default, ONone)
  (* [derive(Clone)] at poly.rs:21, fftsettings.rs:9, kzgsettings.rs:28, fk20settings.rs:24, 32: the fields are copied *)
  | Clone i => do o <- var s i; Done (push h vs o, ONone)
  (* [let b = a;] *)
  | Move i => do o <- var s i; Done (push h (set vs i None) o, ONone)
  (* end of scope, or [drop(a)] *)
  | Drop i => do o <- var s i; do h <- drop_obj h o; Done (St h (set vs i None), ONone)
  (* poly.rs:45-61 [get_coeff_at], [set_coeff_at], [get_coeffs] *)
  | GetCoeff i k => do o <- var s i; match o with OPoly c _ => do v <- h_read h c k; Done (s, OVal v) | _ => Reject end
  | SetCoeff i k v => do o <- var s i; match o with OPoly c _ => do h <- h_write h c k v; Done (St h vs, ONone) | _ => Reject end
  | GetCoeffs i => do o <- var s i; match o with OPoly c n => do l <- h_slice h c n; Done (s, OVals l) | _ => Reject end
  (* fftsettings.rs:62-83 *)
  | RootAt i k => do o <- var s i; match o with OFft _ e _ => do v <- h_read h e k; Done (s, OVal v) | _ => Reject end
  | ReverseAt i k => do o <- var s i; match o with OFft _ _ r => do v <- h_read h r k; Done (s, OVal v) | _ => Reject end
  | Roots i => do o <- var s i; match o with OFft w e _ => do l <- h_slice h e (Z.to_nat w); Done (s, OVals l) | _ => Reject end
  | Reverses i => do o <- var s i; match o with OFft w _ r => do l <- h_slice h r (Z.to_nat w); Done (s, OVals l) | _ => Reject end
  (* kzgsettings.rs:106-110 [get_expanded_roots_of_unity_at] *)
  | KzgRootAt i k =>
    do o <- var s i;
    match o with OKzg fs _ _ _ => do (_, e) <- deref_fft s fs; do v <- h_read h e k; Done (s, OVal v) | _ => Reject end
  (* poly.rs:67-73 [eval] *)
  | Eval i x => do a <- poly_var s i; Done (s, OVal (cl_eval L a x))
  (* poly.rs:83-91 [inverse] *)
  | Inverse i n => do a <- poly_var s i; fill s n (cl_op L PInverse a [] n)
  (* poly.rs:103-121 [long_div], [fast_div]: a polynomial of the length of the dividend *)
  | LongDiv i j => do (a, b) <- two_polys s i j; fill s (length a) (cl_op L PLong a b (length a))
  | FastDiv i j => do (a, b) <- two_polys s i j; fill s (length a) (cl_op L PFast a b (length a))
  (* poly.rs:123-131 [mul_direct] *)
  | MulDirect i j n => do (a, b) <- two_polys s i j; fill s n (cl_op L PMul a b n)
  (* poly.rs:93-101 [div]: from [Poly::default()] *)
  | Div i j =>
    do (a, b) <- two_polys s i j;
    match cl_div L a b with
    | (KzgOk, l) => let '(h, p) := h_alloc h (BFr l) in Done (push h vs (OPoly p (length l)), ONone)
    | _ => fail s (OPoly (cl_div_left L a b) 0)
    end
  (* kzgsettings.rs:86-104, fk20settings.rs:59-77, 110-128 *)
  | UseWidth i =>
    do o <- var s i;
    match o with
    | OKzg fs _ _ _ => do (w, _) <- deref_fft s fs; Done (s, ONone)
    | OSingle ks _ _ | OMulti ks _ _ _ => do fs <- deref_kzg s ks; do (w, _) <- deref_fft s fs; Done (s, ONone)
    | _ => Reject
    end
  end.

(** a program: its calls in order, with what they return *)
Fixpoint run (s : state) (p : list cmd) : out (state * list obs) :=
  match p with
  | [] => Done (s, [])
  | c :: p' => do (s, o) <- step s c; do (s, os) <- run s p'; Done (s, o :: os)
  end.
Definition start : state := St [] [].
End Mem.
Arguments block : clear implicits. Arguments heap : clear implicits. Arguments state : clear implicits.
Arguments cmd : clear implicits. Arguments obs : clear implicits. Arguments clib : clear implicits.
