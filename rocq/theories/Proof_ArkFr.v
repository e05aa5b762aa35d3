(** * Proof_ArkFr: the Arkworks backend at the concrete scalar field *)
From Coq Require Import List Arith Lia ZArith NArith Bool Field Ring.
From Verif Require Import Base Fld Poly Zr ZrTables Loops Model_Utils Proof_Utils Model_FFT Spec Spec_More Spec_Ark Proof_FFT Proof_FFTFr
  Model_Das Proof_DasFr Model_Poly Proof_Poly1 Proof_Poly2 Proof_PolyFr Model_ZeroPoly Proof_Zero1 Proof_Zero2 Proof_Zero3 Proof_Zero4
  Model_Recovery Proof_Recovery Proof_RecoveryFr Proof_MclPoly Proof_MclFr Proof_ZkZero Proof_ZkFr Model_Ark Model_ArkZero Proof_Ark Proof_ArkZero.
Import ListNotations.

Lemma ark_table_blst : ark_table = blst_table.
Proof. unfold ark_table, blst_table. now rewrite (proj1 tables_same). Qed.

Definition ark_W : Fr := fr_of 10238227357739495823651030575849232062558860180284477541189508159991286009131.
Lemma ark_W_root : lib_root ark_W.
Proof. unfold lib_root. apply val_inj. vm_compute. reflexivity. Qed.

Section M0.
Context {K : fld}.
Add Field Kfar : (fld_field K).
Lemma mul0l (x : K) : fmul f0 x = f0. Proof. ring. Qed.
Lemma mul0r (x : K) : fmul x f0 = f0. Proof. ring. Qed.
End M0.

Section A.
Variable W : Fr.
Hypothesis HW : lib_root W.

Lemma aHD m : m < 32 -> dom_gen W m = nth m blst_table f0.
Proof.
  intros Hm. unfold dom_gen. assert (B : fmul W W = nth 31 blst_table f0) by (rewrite <- ark_table_blst; exact HW).
  assert (G : forall d, d <= 31 -> Nat.iter (S d) (fun x => fmul x x) W = nth (31 - d) blst_table f0).
  { induction d; intros Hd; [exact B|].
    change (fmul (Nat.iter (S d) (fun x => fmul x x) W) (Nat.iter (S d) (fun x => fmul x x) W) = nth (31 - S d) blst_table f0).
    rewrite IHd by lia. replace (31 - d) with (S (31 - S d)) by lia. apply blst_table_chain. lia. }
  replace (32 - m) with (S (31 - m)) by lia. rewrite G by lia. f_equal. lia.
Qed.
Lemma aHC k m : m <= k -> k < 32 -> fpow (nth k blst_table (f0 : Fr)) (2 ^ (k - m)) = nth m blst_table f0.
Proof. apply blst_table_pow. Qed.

Lemma anew k : ark_settings_new W k = fft_settings_new blst_table k.
Proof. apply ark_settings_eq; [apply blst_table_length|apply aHD]. Qed.
Lemma agood k s : fft_settings_new blst_table k = Ok s -> good blst_table s k.
Proof. intros E. destruct (new_inv k s E). split; auto. Qed.
Lemma afft k s (data : list Fr) inverse : fft_settings_new blst_table k = Ok s -> ark_fft_fr W s data inverse = fft_fr s data inverse.
Proof. intros E. eapply ark_fft_fr_eq; [apply blst_table_length|apply aHD|apply aHC|apply (agood k s E)]. Qed.
Lemma adas s (v : list Fr) : ark_das_fft_extension s v = das_fft_extension s v.
Proof. apply ark_das_eq. exact two0. Qed.
Lemma afftg (M : gmod Fr) s (data : list M) inverse : data <> [] -> ark_fft_g1 s data inverse = fft_g1 s data inverse.
Proof. apply ark_fft_g1_eq. exact two0. Qed.

Lemma C73_settings_proof scale :
  (scale < 32 ->
   exists s w, ark_settings_new W scale = Ok s /\ ark_from_scale W scale = Ok s /\ ark_settings_clone W s = Ok s /\
     max_width s = 2 ^ scale /\ primitive w (2 ^ scale) /\ root_of_unity s = w /\
     length (expanded_roots s) = 2 ^ scale + 1 /\ length (reverse_roots s) = 2 ^ scale + 1 /\
     forall i, i <= 2 ^ scale ->
       nth_error (expanded_roots s) i = Some (fpow w i) /\
       nth_error (reverse_roots s) i = Some (fpow w (2 ^ scale - i)) /\
       fmul (fpow w i) (fpow w (2 ^ scale - i)) = f1) /\
  (32 <= scale -> ark_settings_new W scale = Err /\ ark_from_scale W scale = Err).
Proof.
  unfold ark_from_scale. rewrite anew. destruct (C05_proof scale) as [A B]. split; [|auto].
  intros H. destruct (A H) as (s & w & E & R). exists s, w. split; [exact E|]. split; [exact E|]. split; [|exact R].
  eapply ark_clone_ok; [apply blst_table_ok|apply blst_table_length|apply aHD].
Qed.

Lemma C73_same_proof scale s (data : list Fr) inverse :
  ark_settings_new W scale = fft_settings_new blst_table scale /\
  (fft_settings_new blst_table scale = Ok s -> ark_fft_fr W s data inverse = fft_fr s data inverse /\
     ark_das_fft_extension s data = das_fft_extension s data).
Proof. split; [apply anew|]. intros E. split; [now apply (afft scale)|apply adas]. Qed.

Lemma C73_fr_proof k s (data : list Fr) :
  ark_settings_new W k = Ok s ->
  (forall m, m <= k -> length data = 2 ^ m ->
     exists out, ark_fft_fr W s data false = Ok out /\ length out = 2 ^ m /\
       forall i, i < 2 ^ m -> nth_error out i = Some (peval data (fpow (root m) i))) /\
  (acceptable s (length data) ->
     (let* f := ark_fft_fr W s data false in ark_fft_fr W s f true) = Ok data /\
     (let* f := ark_fft_fr W s data true in ark_fft_fr W s f false) = Ok data) /\
  (~ acceptable s (length data) -> forall inverse, ark_fft_fr W s data inverse = Err).
Proof.
  rewrite anew. intros E. repeat split.
  - intros m Hm L. rewrite (afft k) by auto. now apply (C07_proof k).
  - rewrite (afft k) by auto. destruct (C08_proof k s data E H) as [A _]. destruct (fft_fr s data false); cbn [bind] in *; try discriminate. now rewrite (afft k).
  - rewrite (afft k) by auto. destruct (C08_proof k s data E H) as [_ A]. destruct (fft_fr s data true); cbn [bind] in *; try discriminate. now rewrite (afft k).
  - intros H inverse. rewrite (afft k) by auto. now apply (fft_fr_total k).
Qed.

Lemma C73_fast_proof m (ret data : list Fr) stride roots rs : m < 32 -> length data = 2 ^ m ->
  (length ret <= 2 ^ m -> exists out, ark_fft_fr_fast W ret data stride roots rs = Ok out /\ length out = length ret /\
     forall i, i < length ret -> nth_error out i = Some (peval data (fpow (root m) i))) /\
  (2 ^ m < length ret -> ark_fft_fr_fast W ret data stride roots rs = Panic).
Proof.
  intros Hm L. destruct (ark_fft_fr_fast_spec W blst_table blst_table_ok blst_table_length aHD aHC m ret data stride roots rs Hm L) as [A B].
  split; [|exact B]. intros H. eexists. split; [exact (A H)|]. split; [now rewrite map_length, seq_length|].
  intros i Hi. rewrite nth_error_map, (nth_error_nth' _ 0) by (now rewrite seq_length). now rewrite seq_nth.
Qed.

Lemma C73_slow_proof (w : Fr) m (ret data roots : list Fr) rs : primitive w (2 ^ m) -> length data = 2 ^ m -> length ret = 2 ^ m ->
  (forall i, i < 2 ^ m -> nth_error roots (i * rs) = Some (fpow w i)) ->
  exists out, ark_fft_fr_slow ret data 1 roots rs = Ok out /\ length out = 2 ^ m /\
    forall i, i < 2 ^ m -> nth_error out i = Some (peval data (fpow w i)).
Proof.
  intros P L R H. destruct (C09_proof Fr w m ret ret data roots rs P L R R H) as (out & _ & E & A & B). exists out. auto.
Qed.

Lemma C73_g1_proof (M : gmod Fr) k s m (data : list M) :
  ark_settings_new W k = Ok s -> m <= k -> length data = 2 ^ m ->
  exists out, ark_fft_g1 s data false = Ok out /\ length out = 2 ^ m /\
    (forall i, i < 2 ^ m ->
       nth_error out i = Some (gsum (2 ^ m) (fun j => smul (fpow (root m) (i * j)) (nth j data g0)))) /\
    ark_fft_g1 s out true = Ok data /\
    (exists inv, ark_fft_g1 s data true = Ok inv /\ ark_fft_g1 s inv false = Ok data).
Proof.
  rewrite anew. intros E Hm L. assert (P := pow2_pos m).
  assert (N : data <> []) by (intros ->; cbn [length] in L; lia).
  destruct (C10_proof M k s m data E Hm L) as (out & A & B & C & D & (inv & F & G)). exists out.
  assert (N2 : out <> []) by (intros ->; cbn [length] in B; lia).
  rewrite !afftg by auto. split; [exact A|]. split; [exact B|]. split; [exact C|]. split; [exact D|].
  exists inv. split; [exact F|]. rewrite afftg; [exact G|].
  destruct (fft_g1_total M k s data true E) as [T _]. destruct T as (o & To & Lo).
  { split; [destruct (new_inv k s E) as (_ & HS & _); rewrite HS, L; apply Nat.pow_le_mono_r; lia|eauto]. }
  rewrite To in F. apply Ok_inj in F. subst o. intros ->. cbn [length] in Lo. lia.
Qed.

Lemma C73_g1_args_proof (M : gmod Fr) k s (data : list M) inverse :
  ark_settings_new W k = Ok s -> ~ acceptable s (length data) -> ark_fft_g1 s data inverse = Err.
Proof.
  rewrite anew. intros E H. destruct data as [|x data]; [apply ark_fft_g1_empty|].
  rewrite afftg by discriminate. now apply (fft_g1_total M k).
Qed.

Lemma C73_das_proof k s m (evens : list Fr) :
  ark_settings_new W k = Ok s -> m < k -> length evens = 2 ^ m ->
  exists odds p, ark_das_fft_extension s evens = Ok odds /\ length odds = 2 ^ m /\ length p = 2 ^ m /\
    (forall i, i < 2 ^ m ->
       nth_error evens i = Some (peval p (fpow (root (S m)) (2 * i))) /\
       nth_error odds i = Some (peval p (fpow (root (S m)) (2 * i + 1)))) /\
    ark_fft_fr W s (interleave evens odds) true = Ok (p ++ repeat f0 (2 ^ m)) /\
    (forall odds' q, length odds' = 2 ^ m -> length q = 2 ^ m ->
       ark_fft_fr W s (interleave evens odds') true = Ok (q ++ repeat f0 (2 ^ m)) -> odds' = odds).
Proof.
  rewrite anew, adas. intros E Hm L. destruct (C11_proof k s m evens E Hm L) as (odds & p & A & B & C & D & F & G).
  exists odds, p. rewrite (afft k) by auto. split; [exact A|]. split; [exact B|]. split; [exact C|]. split; [exact D|]. split; [exact F|].
  intros odds' q. rewrite (afft k) by auto. apply G.
Qed.

Lemma C73_das_args_proof k s (evens : list Fr) :
  ark_settings_new W k = Ok s ->
  ~ ((exists m, length evens = 2 ^ m) /\ 2 * length evens <= max_width s) -> ark_das_fft_extension s evens = Err.
Proof. rewrite anew. intros E. rewrite adas. now apply (C12_proof k). Qed.

(** ** polynomials *)
Lemma map_convol (a b : list Fr) n : length (map (convol a b) (seq 0 n)) = n /\
  forall k, k < n -> nth_error (map (convol a b) (seq 0 n)) k = Some (convol a b k).
Proof.
  split; [now rewrite map_length, seq_length|]. intros k Hk.
  rewrite nth_error_map, (nth_error_nth' _ 0) by (now rewrite seq_length). now rewrite seq_nth.
Qed.

Lemma nz_ne (a : list Fr) : (exists i, coef a i <> f0) -> a <> [].
Proof. intros (i & H) ->. apply H. apply coef_nil. Qed.

Lemma C74_mul_proof (a b : list Fr) (n : nat) :
  (exists i, coef a i <> f0) -> (exists i, coef b i <> f0) -> fits (length a + length b - 1) ->
  exists c, ark_poly_mul W a b None n = Ok c /\ ark_mul_direct a b n = Ok c /\
    (0 < n -> ark_mul_fft W a b None n = Ok c) /\
    length c = n /\ forall k, k < n -> nth_error c k = Some (convol a b k).
Proof.
  intros Ha Hb F. exists (map (convol a b) (seq 0 n)). destruct (map_convol a b n) as [L H].
  assert (F' : fits (Nat.min (length a) n + Nat.min (length b) n - 1)) by (unfold fits in *; lia).
  split; [|split; [|split; [|auto]]].
  - exact (ark_poly_mul_spec W blst_table blst_table_ok blst_table_length aHD aHC a b None n Ha Hb F').
  - now apply ark_mul_direct_spec.
  - intros Hn. exact (ark_mul_fft_spec W blst_table blst_table_ok blst_table_length aHD aHC a b None n (nz_ne a Ha) (nz_ne b Hb) Hn F').
Qed.

Lemma C74_mul_settings_proof (a b : list Fr) k s (n : nat) :
  ark_settings_new W k = Ok s ->
  (exists i, coef a i <> f0) -> (exists i, coef b i <> f0) -> length a + length b - 1 <= 2 ^ k ->
  exists c, ark_poly_mul W a b (Some s) n = Ok c /\ (0 < n -> ark_mul_fft W a b (Some s) n = Ok c) /\
    length c = n /\ forall k, k < n -> nth_error c k = Some (convol a b k).
Proof.
  rewrite anew. intros E Ha Hb F. exists (map (convol a b) (seq 0 n)). destruct (map_convol a b n) as [L H].
  assert (F' : exists k, good blst_table s k /\ Nat.min (length a) n + Nat.min (length b) n - 1 <= 2 ^ k)
    by (exists k; split; [now apply agood|lia]).
  split; [|split; [|auto]].
  - exact (ark_poly_mul_spec W blst_table blst_table_ok blst_table_length aHD aHC a b (Some s) n Ha Hb F').
  - intros Hn. exact (ark_mul_fft_spec W blst_table blst_table_ok blst_table_length aHD aHC a b (Some s) n (nz_ne a Ha) (nz_ne b Hb) Hn F').
Qed.

Lemma C74_mul_zero_proof (a b : list Fr) (n : nat) : (forall i, coef a i = f0) \/ (forall i, coef b i = f0) ->
  ark_mul_direct a b n = Ok [] /\
  (a <> [] -> b <> [] -> 0 < n -> fits (length a + length b - 1) -> ark_mul_fft W a b None n = Ok (repeat f0 n)).
Proof.
  intros Z. split; [now apply ark_mul_direct_zero|]. intros Ha Hb Hn F.
  assert (F' : fits (Nat.min (length a) n + Nat.min (length b) n - 1)) by (unfold fits in *; lia).
  rewrite (ark_mul_fft_spec W blst_table blst_table_ok blst_table_length aHD aHC a b None n Ha Hb Hn F'). f_equal.
  apply (nth_ext' f0); [now rewrite map_length, seq_length, repeat_length|]. intros i Hi.
  rewrite map_length, seq_length in Hi. rewrite nth_map_seq by auto. rewrite nth_repeat.
  unfold convol. apply sum_0. intros j Hj. destruct Z as [Z|Z]; rewrite Z; [apply mul0l|apply mul0r].
Qed.

Lemma C74_mul_limits_proof (a b : list Fr) (n : nat) :
  a <> [] -> b <> [] -> 0 < n -> (N.of_nat (length a + length b) <= 2 ^ 63)%N ->
  (forall k s, ark_settings_new W k = Ok s -> 2 ^ k < Nat.min (length a) n + Nat.min (length b) n - 1 ->
     ark_mul_fft W a b (Some s) n = Err) /\
  (~ fits (Nat.min (length a) n + Nat.min (length b) n - 1) -> ark_mul_fft W a b None n = Panic).
Proof.
  intros Ha Hb Hn HN. destruct (ark_mul_fft_limits W blst_table blst_table_ok blst_table_length aHD a b n Ha Hb Hn HN) as [A B].
  split; [|exact B]. intros k s. rewrite anew. intros E. apply A. now apply agood.
Qed.

Lemma C74_mul_length_zero_proof (a b : list Fr) fs : ark_mul_fft W a b fs 0 = Panic.
Proof. unfold ark_mul_fft. rewrite !Nat.min_0_r. reflexivity. Qed.

Lemma C74_inverse_proof (p : list Fr) (n : nat) :
  (0 < n -> coef p 0 <> f0 -> length p = 1 \/ fits (2 * n - 1) ->
     exists c, ark_poly_inverse W p n = Ok c /\ length c = n /\
       convol p c 0 = f1 /\ forall k, 0 < k < n -> convol p c k = f0) /\
  (p = [] \/ coef p 0 = f0 -> ark_poly_inverse W p n = Err).
Proof.
  split; [|apply ark_poly_inverse_errors]. intros Hn H0 F.
  destruct (ark_poly_inverse_spec W blst_table blst_table_ok blst_table_length aHD aHC p n Hn H0 F) as (c & E & L & H).
  exists c. split; [exact E|]. split; [exact L|]. split; [now rewrite H|]. intros k Hk. rewrite H by lia. now destruct k; [lia|].
Qed.
Lemma C74_inverse_panics_proof (p : list Fr) (n : nat) : coef p 0 <> f0 ->
  n = 0 \/ (2 <= length p /\ ~ fits (2 * n - 1) /\ (N.of_nat (2 * n - 1) <= 2 ^ 63)%N) -> ark_poly_inverse W p n = Panic.
Proof. apply (ark_poly_inverse_panics W blst_table blst_table_length). Qed.

Lemma C74_long_proof (a b : list Fr) :
  ((exists i, coef a i <> f0) -> (exists i, coef b i <> f0) ->
   exists a' b' q, ark_long_div a b = Ok q /\ (exists z, a = a' ++ repeat f0 z) /\ (exists z, b = b' ++ repeat f0 z) /\
     last a' f0 <> f0 /\ last b' f0 <> f0 /\ euclid a' b' q /\ forall q', euclid a' b' q' -> q' = q) /\
  ((forall i, coef a i = f0) -> ark_long_div a b = Ok []) /\
  ((exists i, coef a i <> f0) -> (forall i, coef b i = f0) -> ark_long_div a b = Panic).
Proof.
  destruct (ark_long_div_spec a b) as (A & B & C). split; [|auto]. intros Ha Hb. destruct (C Ha Hb) as (q & E & U).
  destruct (dense_spec a) as [Da La]. destruct (dense_spec b) as [Db Lb].
  assert (G : forall c : list Fr, (exists i, coef c i <> f0) -> (dense c = [] \/ last (dense c) f0 <> f0) -> last (dense c) f0 <> f0).
  { intros c (i & Hi) [Z|Z]; auto. exfalso. apply Hi. rewrite <- dense_coef, Z. apply coef_nil. }
  exists (dense a), (dense b), q. split; [exact E|]. split; [exact Da|]. split; [exact Db|]. split; [now apply G|]. split; [now apply G|].
  split; [exact U|]. intros q' U'. assert (L := G b Hb Lb).
  destruct (C17_proof (dense a) (dense b)) as [D _]. destruct D as (q0 & _ & _ & UN).
  - intros Z. rewrite Z in L. now apply L.
  - rewrite coef_last; [exact L|]. intros Z. rewrite Z in L. now apply L.
  - rewrite (UN q U). now apply UN.
Qed.

Lemma C74_fast_proof (a b : list Fr) : a <> [] -> coef b (length b - 1) <> f0 -> fits (2 * length a) ->
  length b = 1 \/ length a < length b \/ (exists i, coef a i <> f0) \/ 128 <= length a - length b + 1 ->
  exists q, ark_fast_div W a b = Ok q /\ euclid a b q /\ forall q', euclid a b q' -> q' = q.
Proof.
  intros Ha Hb F C. assert (Nb : b <> []) by (intros ->; now apply Hb).
  destruct (ark_fast_div_spec W blst_table blst_table_ok blst_table_length aHD aHC a b Nb Hb) as (_ & S1 & _ & S2).
  destruct (C17_proof a b) as [D _]. destruct (D Nb Hb) as (q0 & _ & U0 & UN).
  destruct (Nat.lt_ge_cases (length a) (length b)) as [L|L].
  - exists []. split; [now apply S1|]. assert (E : q0 = []) by (destruct U0 as (Lq & _); destruct q0; [auto|cbn [length] in Lq; lia]).
    subst q0. split; [exact U0|exact UN].
  - assert (1 <= length b) by (destruct b; [congruence|cbn [length]; lia]).
    destruct S2 as (q & E & U); [exact Ha|exact L|unfold fits in *; lia|destruct C as [C|[C|C]]; [left; exact C|lia|right; exact C]|].
    exists q. split; [exact E|]. split; [exact U|]. intros q' U'. rewrite (UN q U). now apply UN.
Qed.

Lemma C74_fast_fail_proof (a b : list Fr) :
  (b = [] \/ coef b (length b - 1) = f0 -> ark_fast_div W a b = Err) /\
  (coef b (length b - 1) <> f0 -> ark_fast_div W [] b = Panic) /\
  (coef b (length b - 1) <> f0 -> (forall i, coef a i = f0) -> 2 <= length b <= length a -> length a - length b + 1 < 128 ->
     ark_fast_div W a b = Panic).
Proof.
  split; [apply ark_fast_div_errors|].
  assert (G : coef b (length b - 1) <> f0 -> b <> []) by (intros H ->; now apply H).
  split.
  - intros Hb. exact (proj1 (ark_fast_div_spec W blst_table blst_table_ok blst_table_length aHD aHC [] b (G Hb) Hb) eq_refl).
  - intros Hb Z L D. destruct (ark_fast_div_spec W blst_table blst_table_ok blst_table_length aHD aHC a b (G Hb) Hb) as (_ & _ & S & _).
    apply S; auto; [intros ->; cbn [length] in L; lia|]. unfold fits. assert (300 <= 2 ^ 31); [|lia].
    transitivity (2 ^ 10); [|apply Nat.pow_le_mono_r; lia]. apply Nat.leb_le. vm_compute. reflexivity.
Qed.

Lemma C74_div_proof (a b : list Fr) :
  coef b (length b - 1) <> f0 -> (exists i, coef a i <> f0) -> fits (2 * length a) ->
  exists q r, ark_poly_div W a b = Ok q /\ length q <= length a + 1 - length b /\ length r < length b /\
    forall k, coef a k = fadd (convol q b k) (coef r k).
Proof.
  intros Hb Ha F. assert (Nb : b <> []) by (intros ->; now apply Hb). assert (Na := nz_ne a Ha).
  destruct (ark_poly_div_spec W blst_table blst_table_ok blst_table_length aHD aHC a b Nb Hb Ha) as (q & E & L & r & R).
  { unfold fits in *. destruct b; [congruence|]. destruct a; [congruence|]. cbn [length] in *. lia. }
  exists q, r. auto.
Qed.

Lemma C74_div_edges_proof (a b : list Fr) :
  ((forall i, coef a i = f0) -> length a <= length b \/ length b < 128 -> ark_poly_div W a b = Ok []) /\
  ((forall i, coef a i = f0) -> 128 <= length b < length a -> coef b (length b - 1) <> f0 -> length a - length b + 1 < 128 -> ark_poly_div W a b = Panic) /\
  ((exists i, coef a i <> f0) -> (forall i, coef b i = f0) -> length a <= length b \/ length b < 128 -> ark_poly_div W a b = Panic) /\
  (128 <= length b < length a -> coef b (length b - 1) = f0 -> ark_poly_div W a b = Err).
Proof. exact (ark_poly_div_edges W blst_table blst_table_ok blst_table_length aHD aHC a b). Qed.

Lemma C75_scale_proof (p : list Fr) :
  exists q u, ark_scale_poly p = Ok q /\ ark_unscale_poly p = Ok u /\ ark_unscale_poly q = Ok p /\ ark_scale_poly u = Ok p /\
    length q = length p /\ length u = length p /\
    forall x : Fr, peval q x = peval p (fdiv x (fr_of 5)) /\ peval u x = peval p (fmul (fr_of 5) x).
Proof.
  destruct (ark_scale_spec p five0) as [A B]. destruct (ark_scale_roundtrip p five0) as [C D].
  eexists. eexists. split; [exact A|]. split; [exact B|].
  rewrite A in C. rewrite B in D. split; [exact C|]. split; [exact D|].
  rewrite !map_length, seq_length. split; [reflexivity|]. split; [reflexivity|].
  intros x. unfold coef. rewrite !peval_geom0, fnat5. rewrite fdiv_comm5. split; reflexivity.
Qed.

(** ** vanishing polynomials *)
Lemma C76_partial_proof k s m (idxs : list nat) :
  ark_settings_new W k = Ok s -> m <= k -> Forall (fun i => i < 2 ^ m) idxs ->
  (idxs <> [] -> exists p, ark_zero_partial s idxs (2 ^ (k - m)) = Ok p /\ length p = length idxs + 1 /\
     (forall j, coef p j = coef (vanish_poly (map (fpow (root m)) idxs)) j) /\
     (forall x, peval p x = vanish (map (fpow (root m)) idxs) x) /\
     coef p (length idxs) = f1 /\
     (forall i, i < 2 ^ m -> (peval p (fpow (root m) i) = f0 <-> In i idxs))) /\
  (idxs = [] -> ark_zero_partial s idxs (2 ^ (k - m)) = Err).
Proof. rewrite anew, (ark_zero_partial_eq blst_table blst_table_length). apply C20_proof. Qed.

Lemma C76_reduce_proof k s dom (ps : list (list Fr)) :
  ark_settings_new W k = Ok s -> ps <> [] -> Forall (fun p => p <> []) ps ->
  let len := 1 + list_sum (map (fun p => length p - 1) ps) in
  ((exists m, dom = 2 ^ m) /\ len <= dom <= max_width s ->
     exists c, ark_reduce_partials W s dom ps = Ok c /\ length c = len /\
       (forall j, coef c j = coef (fold_right pmul [f1] ps) j) /\
       (forall x, peval c x = fold_right fmul f1 (map (fun p => peval p x) ps))) /\
  (dom < len -> ark_reduce_partials W s dom ps = Err) /\
  (len <= dom -> (forall m, dom <> 2 ^ m) \/ max_width s < dom -> ark_reduce_partials W s dom ps = Panic).
Proof.
  rewrite anew. intros E Hn HF len. assert (HG := agood k s E). destruct (new_inv k s E) as (Hk & HS). split; [|split].
  - intros H. destruct (C21_proof k s dom ps E Hn HF) as [A _]. destruct (A H) as (c & Ec & R). exists c. split; [|exact R].
    exact (ark_reduce_carries W blst_table blst_table_length aHD aHC s k HG dom ps c Ec).
  - intros H. apply (ark_reduce_short W blst_table blst_table_length); auto. rewrite degsum_ls. exact H.
  - intros L H. apply (ark_reduce_panics W blst_table blst_table_length aHD aHC s k HG); auto; [rewrite degsum_ls; exact L|].
    destruct HS as (HWd & _). now rewrite <- HWd.
Qed.

Lemma C76_zero_poly_proof k s m (missing : list nat) :
  ark_settings_new W k = Ok s -> m <= k ->
  0 < length missing < 2 ^ m -> length missing <= 63 * (2 ^ m / 64 + 1) ->
  Forall (fun i => i < 2 ^ m) missing ->
  exists ev zp, ark_zero_poly W s (2 ^ m) missing = Ok (ev, zp) /\
    length ev = 2 ^ m /\ length zp = 2 ^ m /\
    (forall j, coef zp j = coef (vanish_poly (map (fpow (root m)) missing)) j) /\
    (forall x, peval zp x = vanish (map (fpow (root m)) missing) x) /\
    coef zp (length missing) = f1 /\
    (forall i, i < 2 ^ m -> nth_error ev i = Some (peval zp (fpow (root m) i))) /\
    (forall i, i < 2 ^ m -> (nth_error ev i = Some f0 <-> In i missing)).
Proof.
  rewrite anew. intros E Hm H1 H2 HF. destruct (C22_proof k s m missing E Hm H1 H2 HF) as (ev & zp & Ez & R).
  exists ev, zp. split; [|exact R]. destruct (new_inv k s E) as (Hk & _).
  apply (ark_zero_poly_carries W blst_table blst_table_length aHD aHC s k (agood k s E)); [|exact Ez]. apply (pow2_N_le m 57). lia.
Qed.

Lemma C76_args_proof (s : fft_settings Fr) d (missing : list nat) :
  (missing = [] -> ark_zero_poly W s d missing = Ok ([], [])) /\
  (missing <> [] -> d <= length missing \/ max_width s < d \/ (forall m, d <> 2 ^ m) -> ark_zero_poly W s d missing = Err).
Proof. apply (ark_zero_poly_args W blst_table blst_table_length). Qed.

Lemma C76_fails_proof k s m (missing : list nat) :
  ark_settings_new W k = Ok s -> m <= k ->
  63 * (2 ^ m / 64 + 1) < length missing < 2 ^ m -> Forall (fun i => i < 2 ^ m) missing ->
  ark_zero_poly W s (2 ^ m) missing = Err.
Proof.
  rewrite anew. intros E Hm H HF.
  apply (ark_zero_poly_fails W blst_table blst_table_length aHD aHC s k m missing (agood k s E)); auto.
Qed.

(** ** recovery *)
Lemma arec k s m (samples : list (option Fr)) : fft_settings_new blst_table k = Ok s -> m <= k -> length samples = 2 ^ m ->
  ark_recover W s samples = recover_opt (2 ^ m) s samples.
Proof.
  intros E Hm L. destruct (new_inv k s E) as (Hk & HS).
  apply (ark_recover_spec W blst_table blst_table_length aHD aHC s k m (agood k s E) Hm five0); auto. apply five1. lia.
Qed.

Lemma C77_proof k s m (p : list Fr) (samples : list (option Fr)) :
  ark_settings_new W k = Ok s -> m <= k -> length samples = 2 ^ m -> 2 * length p <= 2 ^ m ->
  (forall i v, nth_error samples i = Some (Some v) -> v = peval p (fpow (root m) i)) ->
  0 < missing_count samples -> 2 * missing_count samples <= 2 ^ m ->
  ark_recover W s samples = Ok (map (fun i => peval p (fpow (root m) i)) (seq 0 (2 ^ m))).
Proof.
  rewrite anew. intros E Hm L Lp HV H0 H2. rewrite (arec k s m) by auto.
  now rewrite (C24_half_tl (2 ^ m) k s m p) by auto.
Qed.

Lemma C77_gen_proof k s m (samples : list (option Fr)) :
  ark_settings_new W k = Ok s -> m <= k -> length samples = 2 ^ m ->
  0 < missing_count samples < 2 ^ m -> missing_count samples <= 63 * (2 ^ m / 64 + 1) ->
  exists p data, length p = 2 ^ m - missing_count samples /\ ark_recover W s samples = Ok data /\
    length data = 2 ^ m /\
    (forall i, i < 2 ^ m -> nth_error data i = Some (peval p (fpow (root m) i))) /\
    (forall i v, nth_error samples i = Some (Some v) -> peval p (fpow (root m) i) = v) /\
    (forall q, length q <= 2 ^ m - missing_count samples ->
       (forall i v, nth_error samples i = Some (Some v) -> peval q (fpow (root m) i) = v) -> forall j, coef q j = coef p j).
Proof.
  rewrite anew. intros E Hm L H0 H2. rewrite (arec k s m) by auto.
  exact (C24_gen_tl (2 ^ m) k s m samples E Hm (le_n _) L H0 H2).
Qed.

Lemma C77_agrees_proof k s m (samples : list (option Fr)) data :
  ark_settings_new W k = Ok s -> m <= k -> length samples = 2 ^ m -> ark_recover W s samples = Ok data ->
  forall i v, nth_error samples i = Some (Some v) -> nth_error data i = Some v.
Proof.
  rewrite anew. intros E Hm L. rewrite (arec k s m) by auto. intros R. now apply (C25_proof (2 ^ m) s).
Qed.

Lemma C77_complete_proof k s m (vs : list Fr) : ark_settings_new W k = Ok s -> m <= k -> length vs = 2 ^ m ->
  ark_recover W s (map Some vs) = Panic.
Proof.
  rewrite anew. intros E Hm L. rewrite (arec k s m) by (rewrite ?map_length; auto).
  apply (proj1 (C26_proof (2 ^ m) s vs m L)).
Qed.

Lemma C77_lengths_proof (s : fft_settings Fr) (samples : list (option Fr)) :
  ((forall m, length samples <> 2 ^ m) -> ark_recover W s samples = Err) /\
  (forall m, length samples = 2 ^ m -> max_width s < 2 ^ m -> ark_recover W s samples = Panic).
Proof. apply (ark_recover_lengths W blst_table blst_table_length). Qed.
End A.

Lemma C73_g1_slow_proof (M : gmod Fr) (w : Fr) n (ret data : list M) (roots : list Fr) rs :
  1 < n -> length ret = n -> length data = n -> fpow w n = f1 ->
  (forall i, i < n -> nth_error roots (i * rs) = Some (fpow w i)) ->
  exists out, ark_fft_g1_slow ret data 1 roots rs = Ok out /\ length out = n /\
    forall i, i < n -> nth_error out i = Some (gsum n (fun j => smul (fpow w (i * j)) (nth j data g0))).
Proof.
  intros Hn L1 L2 HP HR. eexists. split; [apply (ark_fft_g1_slow_spec w n ret data 1 roots rs); auto; [lia|]|].
  - intros i Hi. unfold idx. now rewrite HR.
  - split; [now rewrite map_length, seq_length|]. intros i Hi.
    rewrite nth_error_map, (nth_error_nth' _ 0) by (now rewrite seq_length). rewrite seq_nth by auto. cbn [option_map Nat.add]. f_equal.
    apply gsum_ext. intros j Hj. now rewrite Nat.mul_1_r.
Qed.
