(** * Spec_Defaults: transform settings that hold one root, and settings that hold none *)
From Coq Require Import List.
From Verif Require Import Base Fld Model_FFT.
Import ListNotations.

(** room for one value; the list of roots has both ends of the circle *)
Definition one_wide {K : fld} (s : fft_settings K) : Prop := s = mkFS 1 f1 [f1; f1] [f1; f1].
(** room for nothing *)
Definition no_room {K : fld} (s : fft_settings K) : Prop := s = mkFS 0 f0 [] [].
