(** * Digits: arithmetic modulo p on numbers in base 64

    The numbers are lists of digits with addition tables, so that the standalone checker, which has no machine integers,
    can evaluate long computations in the extension fields.  Products are Montgomery products with radix 64^64 = 2^384. *)
From Coq Require Import ZArith List Bool Lia.
From Verif Require Import Base Fld Zp.
Local Open Scope Z_scope.

Inductive D : Set :=
    | D0 | D1 | D2 | D3 | D4 | D5 | D6 | D7 | D8 | D9 | D10 | D11 | D12 | D13 | D14 | D15
    | D16 | D17 | D18 | D19 | D20 | D21 | D22 | D23 | D24 | D25 | D26 | D27 | D28 | D29 | D30 | D31
    | D32 | D33 | D34 | D35 | D36 | D37 | D38 | D39 | D40 | D41 | D42 | D43 | D44 | D45 | D46 | D47
    | D48 | D49 | D50 | D51 | D52 | D53 | D54 | D55 | D56 | D57 | D58 | D59 | D60 | D61 | D62 | D63.
(** least digit first *)
Inductive num : Set := E | C (d : D) (n : num).
Definition dv (d : D) : Z :=
  match d with
    | D0 => 0 | D1 => 1 | D2 => 2 | D3 => 3 | D4 => 4 | D5 => 5 | D6 => 6 | D7 => 7 | D8 => 8 | D9 => 9 | D10 => 10 | D11 => 11 | D12 => 12 | D13 => 13 | D14 => 14 | D15 => 15
    | D16 => 16 | D17 => 17 | D18 => 18 | D19 => 19 | D20 => 20 | D21 => 21 | D22 => 22 | D23 => 23 | D24 => 24 | D25 => 25 | D26 => 26 | D27 => 27 | D28 => 28 | D29 => 29 | D30 => 30 | D31 => 31
    | D32 => 32 | D33 => 33 | D34 => 34 | D35 => 35 | D36 => 36 | D37 => 37 | D38 => 38 | D39 => 39 | D40 => 40 | D41 => 41 | D42 => 42 | D43 => 43 | D44 => 44 | D45 => 45 | D46 => 46 | D47 => 47
    | D48 => 48 | D49 => 49 | D50 => 50 | D51 => 51 | D52 => 52 | D53 => 53 | D54 => 54 | D55 => 55 | D56 => 56 | D57 => 57 | D58 => 58 | D59 => 59 | D60 => 60 | D61 => 61 | D62 => 62 | D63 => 63
  end.
Fixpoint nv (x : num) : Z := match x with E => 0 | C d x => dv d + 64 * nv x end.
Fixpoint full (x : num) : bool := match x with E => true | C _ x => full x end.
Fixpoint inc (x : num) : num :=
  match x with
  | E => C D1 E
  | C d x => match d with
    | D0 => C D1 x | D1 => C D2 x | D2 => C D3 x | D3 => C D4 x | D4 => C D5 x | D5 => C D6 x | D6 => C D7 x | D7 => C D8 x
    | D8 => C D9 x | D9 => C D10 x | D10 => C D11 x | D11 => C D12 x | D12 => C D13 x | D13 => C D14 x | D14 => C D15 x | D15 => C D16 x
    | D16 => C D17 x | D17 => C D18 x | D18 => C D19 x | D19 => C D20 x | D20 => C D21 x | D21 => C D22 x | D22 => C D23 x | D23 => C D24 x
    | D24 => C D25 x | D25 => C D26 x | D26 => C D27 x | D27 => C D28 x | D28 => C D29 x | D29 => C D30 x | D30 => C D31 x | D31 => C D32 x
    | D32 => C D33 x | D33 => C D34 x | D34 => C D35 x | D35 => C D36 x | D36 => C D37 x | D37 => C D38 x | D38 => C D39 x | D39 => C D40 x
    | D40 => C D41 x | D41 => C D42 x | D42 => C D43 x | D43 => C D44 x | D44 => C D45 x | D45 => C D46 x | D46 => C D47 x | D47 => C D48 x
    | D48 => C D49 x | D49 => C D50 x | D50 => C D51 x | D51 => C D52 x | D52 => C D53 x | D53 => C D54 x | D54 => C D55 x | D55 => C D56 x
    | D56 => C D57 x | D57 => C D58 x | D58 => C D59 x | D59 => C D60 x | D60 => C D61 x | D61 => C D62 x | D62 => C D63 x | D63 => C D0 (inc x)
    end
  end.
(** one column of an addition: [f] gives the rest, [g] the rest with a carry *)
Definition tab0 (f g : num -> num -> num) (d e : D) (x y : num) : num :=
    match d with
    | D0 => match e with | D0 => C D0 (f x y) | D1 => C D1 (f x y) | D2 => C D2 (f x y) | D3 => C D3 (f x y) | D4 => C D4 (f x y) | D5 => C D5 (f x y) | D6 => C D6 (f x y) | D7 => C D7 (f x y) | D8 => C D8 (f x y) | D9 => C D9 (f x y) | D10 => C D10 (f x y) | D11 => C D11 (f x y) | D12 => C D12 (f x y) | D13 => C D13 (f x y) | D14 => C D14 (f x y) | D15 => C D15 (f x y) | D16 => C D16 (f x y) | D17 => C D17 (f x y) | D18 => C D18 (f x y) | D19 => C D19 (f x y) | D20 => C D20 (f x y) | D21 => C D21 (f x y) | D22 => C D22 (f x y) | D23 => C D23 (f x y) | D24 => C D24 (f x y) | D25 => C D25 (f x y) | D26 => C D26 (f x y) | D27 => C D27 (f x y) | D28 => C D28 (f x y) | D29 => C D29 (f x y) | D30 => C D30 (f x y) | D31 => C D31 (f x y) | D32 => C D32 (f x y) | D33 => C D33 (f x y) | D34 => C D34 (f x y) | D35 => C D35 (f x y) | D36 => C D36 (f x y) | D37 => C D37 (f x y) | D38 => C D38 (f x y) | D39 => C D39 (f x y) | D40 => C D40 (f x y) | D41 => C D41 (f x y) | D42 => C D42 (f x y) | D43 => C D43 (f x y) | D44 => C D44 (f x y) | D45 => C D45 (f x y) | D46 => C D46 (f x y) | D47 => C D47 (f x y) | D48 => C D48 (f x y) | D49 => C D49 (f x y) | D50 => C D50 (f x y) | D51 => C D51 (f x y) | D52 => C D52 (f x y) | D53 => C D53 (f x y) | D54 => C D54 (f x y) | D55 => C D55 (f x y) | D56 => C D56 (f x y) | D57 => C D57 (f x y) | D58 => C D58 (f x y) | D59 => C D59 (f x y) | D60 => C D60 (f x y) | D61 => C D61 (f x y) | D62 => C D62 (f x y) | D63 => C D63 (f x y) end
    | D1 => match e with | D0 => C D1 (f x y) | D1 => C D2 (f x y) | D2 => C D3 (f x y) | D3 => C D4 (f x y) | D4 => C D5 (f x y) | D5 => C D6 (f x y) | D6 => C D7 (f x y) | D7 => C D8 (f x y) | D8 => C D9 (f x y) | D9 => C D10 (f x y) | D10 => C D11 (f x y) | D11 => C D12 (f x y) | D12 => C D13 (f x y) | D13 => C D14 (f x y) | D14 => C D15 (f x y) | D15 => C D16 (f x y) | D16 => C D17 (f x y) | D17 => C D18 (f x y) | D18 => C D19 (f x y) | D19 => C D20 (f x y) | D20 => C D21 (f x y) | D21 => C D22 (f x y) | D22 => C D23 (f x y) | D23 => C D24 (f x y) | D24 => C D25 (f x y) | D25 => C D26 (f x y) | D26 => C D27 (f x y) | D27 => C D28 (f x y) | D28 => C D29 (f x y) | D29 => C D30 (f x y) | D30 => C D31 (f x y) | D31 => C D32 (f x y) | D32 => C D33 (f x y) | D33 => C D34 (f x y) | D34 => C D35 (f x y) | D35 => C D36 (f x y) | D36 => C D37 (f x y) | D37 => C D38 (f x y) | D38 => C D39 (f x y) | D39 => C D40 (f x y) | D40 => C D41 (f x y) | D41 => C D42 (f x y) | D42 => C D43 (f x y) | D43 => C D44 (f x y) | D44 => C D45 (f x y) | D45 => C D46 (f x y) | D46 => C D47 (f x y) | D47 => C D48 (f x y) | D48 => C D49 (f x y) | D49 => C D50 (f x y) | D50 => C D51 (f x y) | D51 => C D52 (f x y) | D52 => C D53 (f x y) | D53 => C D54 (f x y) | D54 => C D55 (f x y) | D55 => C D56 (f x y) | D56 => C D57 (f x y) | D57 => C D58 (f x y) | D58 => C D59 (f x y) | D59 => C D60 (f x y) | D60 => C D61 (f x y) | D61 => C D62 (f x y) | D62 => C D63 (f x y) | D63 => C D0 (g x y) end
    | D2 => match e with | D0 => C D2 (f x y) | D1 => C D3 (f x y) | D2 => C D4 (f x y) | D3 => C D5 (f x y) | D4 => C D6 (f x y) | D5 => C D7 (f x y) | D6 => C D8 (f x y) | D7 => C D9 (f x y) | D8 => C D10 (f x y) | D9 => C D11 (f x y) | D10 => C D12 (f x y) | D11 => C D13 (f x y) | D12 => C D14 (f x y) | D13 => C D15 (f x y) | D14 => C D16 (f x y) | D15 => C D17 (f x y) | D16 => C D18 (f x y) | D17 => C D19 (f x y) | D18 => C D20 (f x y) | D19 => C D21 (f x y) | D20 => C D22 (f x y) | D21 => C D23 (f x y) | D22 => C D24 (f x y) | D23 => C D25 (f x y) | D24 => C D26 (f x y) | D25 => C D27 (f x y) | D26 => C D28 (f x y) | D27 => C D29 (f x y) | D28 => C D30 (f x y) | D29 => C D31 (f x y) | D30 => C D32 (f x y) | D31 => C D33 (f x y) | D32 => C D34 (f x y) | D33 => C D35 (f x y) | D34 => C D36 (f x y) | D35 => C D37 (f x y) | D36 => C D38 (f x y) | D37 => C D39 (f x y) | D38 => C D40 (f x y) | D39 => C D41 (f x y) | D40 => C D42 (f x y) | D41 => C D43 (f x y) | D42 => C D44 (f x y) | D43 => C D45 (f x y) | D44 => C D46 (f x y) | D45 => C D47 (f x y) | D46 => C D48 (f x y) | D47 => C D49 (f x y) | D48 => C D50 (f x y) | D49 => C D51 (f x y) | D50 => C D52 (f x y) | D51 => C D53 (f x y) | D52 => C D54 (f x y) | D53 => C D55 (f x y) | D54 => C D56 (f x y) | D55 => C D57 (f x y) | D56 => C D58 (f x y) | D57 => C D59 (f x y) | D58 => C D60 (f x y) | D59 => C D61 (f x y) | D60 => C D62 (f x y) | D61 => C D63 (f x y) | D62 => C D0 (g x y) | D63 => C D1 (g x y) end
    | D3 => match e with | D0 => C D3 (f x y) | D1 => C D4 (f x y) | D2 => C D5 (f x y) | D3 => C D6 (f x y) | D4 => C D7 (f x y) | D5 => C D8 (f x y) | D6 => C D9 (f x y) | D7 => C D10 (f x y) | D8 => C D11 (f x y) | D9 => C D12 (f x y) | D10 => C D13 (f x y) | D11 => C D14 (f x y) | D12 => C D15 (f x y) | D13 => C D16 (f x y) | D14 => C D17 (f x y) | D15 => C D18 (f x y) | D16 => C D19 (f x y) | D17 => C D20 (f x y) | D18 => C D21 (f x y) | D19 => C D22 (f x y) | D20 => C D23 (f x y) | D21 => C D24 (f x y) | D22 => C D25 (f x y) | D23 => C D26 (f x y) | D24 => C D27 (f x y) | D25 => C D28 (f x y) | D26 => C D29 (f x y) | D27 => C D30 (f x y) | D28 => C D31 (f x y) | D29 => C D32 (f x y) | D30 => C D33 (f x y) | D31 => C D34 (f x y) | D32 => C D35 (f x y) | D33 => C D36 (f x y) | D34 => C D37 (f x y) | D35 => C D38 (f x y) | D36 => C D39 (f x y) | D37 => C D40 (f x y) | D38 => C D41 (f x y) | D39 => C D42 (f x y) | D40 => C D43 (f x y) | D41 => C D44 (f x y) | D42 => C D45 (f x y) | D43 => C D46 (f x y) | D44 => C D47 (f x y) | D45 => C D48 (f x y) | D46 => C D49 (f x y) | D47 => C D50 (f x y) | D48 => C D51 (f x y) | D49 => C D52 (f x y) | D50 => C D53 (f x y) | D51 => C D54 (f x y) | D52 => C D55 (f x y) | D53 => C D56 (f x y) | D54 => C D57 (f x y) | D55 => C D58 (f x y) | D56 => C D59 (f x y) | D57 => C D60 (f x y) | D58 => C D61 (f x y) | D59 => C D62 (f x y) | D60 => C D63 (f x y) | D61 => C D0 (g x y) | D62 => C D1 (g x y) | D63 => C D2 (g x y) end
    | D4 => match e with | D0 => C D4 (f x y) | D1 => C D5 (f x y) | D2 => C D6 (f x y) | D3 => C D7 (f x y) | D4 => C D8 (f x y) | D5 => C D9 (f x y) | D6 => C D10 (f x y) | D7 => C D11 (f x y) | D8 => C D12 (f x y) | D9 => C D13 (f x y) | D10 => C D14 (f x y) | D11 => C D15 (f x y) | D12 => C D16 (f x y) | D13 => C D17 (f x y) | D14 => C D18 (f x y) | D15 => C D19 (f x y) | D16 => C D20 (f x y) | D17 => C D21 (f x y) | D18 => C D22 (f x y) | D19 => C D23 (f x y) | D20 => C D24 (f x y) | D21 => C D25 (f x y) | D22 => C D26 (f x y) | D23 => C D27 (f x y) | D24 => C D28 (f x y) | D25 => C D29 (f x y) | D26 => C D30 (f x y) | D27 => C D31 (f x y) | D28 => C D32 (f x y) | D29 => C D33 (f x y) | D30 => C D34 (f x y) | D31 => C D35 (f x y) | D32 => C D36 (f x y) | D33 => C D37 (f x y) | D34 => C D38 (f x y) | D35 => C D39 (f x y) | D36 => C D40 (f x y) | D37 => C D41 (f x y) | D38 => C D42 (f x y) | D39 => C D43 (f x y) | D40 => C D44 (f x y) | D41 => C D45 (f x y) | D42 => C D46 (f x y) | D43 => C D47 (f x y) | D44 => C D48 (f x y) | D45 => C D49 (f x y) | D46 => C D50 (f x y) | D47 => C D51 (f x y) | D48 => C D52 (f x y) | D49 => C D53 (f x y) | D50 => C D54 (f x y) | D51 => C D55 (f x y) | D52 => C D56 (f x y) | D53 => C D57 (f x y) | D54 => C D58 (f x y) | D55 => C D59 (f x y) | D56 => C D60 (f x y) | D57 => C D61 (f x y) | D58 => C D62 (f x y) | D59 => C D63 (f x y) | D60 => C D0 (g x y) | D61 => C D1 (g x y) | D62 => C D2 (g x y) | D63 => C D3 (g x y) end
    | D5 => match e with | D0 => C D5 (f x y) | D1 => C D6 (f x y) | D2 => C D7 (f x y) | D3 => C D8 (f x y) | D4 => C D9 (f x y) | D5 => C D10 (f x y) | D6 => C D11 (f x y) | D7 => C D12 (f x y) | D8 => C D13 (f x y) | D9 => C D14 (f x y) | D10 => C D15 (f x y) | D11 => C D16 (f x y) | D12 => C D17 (f x y) | D13 => C D18 (f x y) | D14 => C D19 (f x y) | D15 => C D20 (f x y) | D16 => C D21 (f x y) | D17 => C D22 (f x y) | D18 => C D23 (f x y) | D19 => C D24 (f x y) | D20 => C D25 (f x y) | D21 => C D26 (f x y) | D22 => C D27 (f x y) | D23 => C D28 (f x y) | D24 => C D29 (f x y) | D25 => C D30 (f x y) | D26 => C D31 (f x y) | D27 => C D32 (f x y) | D28 => C D33 (f x y) | D29 => C D34 (f x y) | D30 => C D35 (f x y) | D31 => C D36 (f x y) | D32 => C D37 (f x y) | D33 => C D38 (f x y) | D34 => C D39 (f x y) | D35 => C D40 (f x y) | D36 => C D41 (f x y) | D37 => C D42 (f x y) | D38 => C D43 (f x y) | D39 => C D44 (f x y) | D40 => C D45 (f x y) | D41 => C D46 (f x y) | D42 => C D47 (f x y) | D43 => C D48 (f x y) | D44 => C D49 (f x y) | D45 => C D50 (f x y) | D46 => C D51 (f x y) | D47 => C D52 (f x y) | D48 => C D53 (f x y) | D49 => C D54 (f x y) | D50 => C D55 (f x y) | D51 => C D56 (f x y) | D52 => C D57 (f x y) | D53 => C D58 (f x y) | D54 => C D59 (f x y) | D55 => C D60 (f x y) | D56 => C D61 (f x y) | D57 => C D62 (f x y) | D58 => C D63 (f x y) | D59 => C D0 (g x y) | D60 => C D1 (g x y) | D61 => C D2 (g x y) | D62 => C D3 (g x y) | D63 => C D4 (g x y) end
    | D6 => match e with | D0 => C D6 (f x y) | D1 => C D7 (f x y) | D2 => C D8 (f x y) | D3 => C D9 (f x y) | D4 => C D10 (f x y) | D5 => C D11 (f x y) | D6 => C D12 (f x y) | D7 => C D13 (f x y) | D8 => C D14 (f x y) | D9 => C D15 (f x y) | D10 => C D16 (f x y) | D11 => C D17 (f x y) | D12 => C D18 (f x y) | D13 => C D19 (f x y) | D14 => C D20 (f x y) | D15 => C D21 (f x y) | D16 => C D22 (f x y) | D17 => C D23 (f x y) | D18 => C D24 (f x y) | D19 => C D25 (f x y) | D20 => C D26 (f x y) | D21 => C D27 (f x y) | D22 => C D28 (f x y) | D23 => C D29 (f x y) | D24 => C D30 (f x y) | D25 => C D31 (f x y) | D26 => C D32 (f x y) | D27 => C D33 (f x y) | D28 => C D34 (f x y) | D29 => C D35 (f x y) | D30 => C D36 (f x y) | D31 => C D37 (f x y) | D32 => C D38 (f x y) | D33 => C D39 (f x y) | D34 => C D40 (f x y) | D35 => C D41 (f x y) | D36 => C D42 (f x y) | D37 => C D43 (f x y) | D38 => C D44 (f x y) | D39 => C D45 (f x y) | D40 => C D46 (f x y) | D41 => C D47 (f x y) | D42 => C D48 (f x y) | D43 => C D49 (f x y) | D44 => C D50 (f x y) | D45 => C D51 (f x y) | D46 => C D52 (f x y) | D47 => C D53 (f x y) | D48 => C D54 (f x y) | D49 => C D55 (f x y) | D50 => C D56 (f x y) | D51 => C D57 (f x y) | D52 => C D58 (f x y) | D53 => C D59 (f x y) | D54 => C D60 (f x y) | D55 => C D61 (f x y) | D56 => C D62 (f x y) | D57 => C D63 (f x y) | D58 => C D0 (g x y) | D59 => C D1 (g x y) | D60 => C D2 (g x y) | D61 => C D3 (g x y) | D62 => C D4 (g x y) | D63 => C D5 (g x y) end
    | D7 => match e with | D0 => C D7 (f x y) | D1 => C D8 (f x y) | D2 => C D9 (f x y) | D3 => C D10 (f x y) | D4 => C D11 (f x y) | D5 => C D12 (f x y) | D6 => C D13 (f x y) | D7 => C D14 (f x y) | D8 => C D15 (f x y) | D9 => C D16 (f x y) | D10 => C D17 (f x y) | D11 => C D18 (f x y) | D12 => C D19 (f x y) | D13 => C D20 (f x y) | D14 => C D21 (f x y) | D15 => C D22 (f x y) | D16 => C D23 (f x y) | D17 => C D24 (f x y) | D18 => C D25 (f x y) | D19 => C D26 (f x y) | D20 => C D27 (f x y) | D21 => C D28 (f x y) | D22 => C D29 (f x y) | D23 => C D30 (f x y) | D24 => C D31 (f x y) | D25 => C D32 (f x y) | D26 => C D33 (f x y) | D27 => C D34 (f x y) | D28 => C D35 (f x y) | D29 => C D36 (f x y) | D30 => C D37 (f x y) | D31 => C D38 (f x y) | D32 => C D39 (f x y) | D33 => C D40 (f x y) | D34 => C D41 (f x y) | D35 => C D42 (f x y) | D36 => C D43 (f x y) | D37 => C D44 (f x y) | D38 => C D45 (f x y) | D39 => C D46 (f x y) | D40 => C D47 (f x y) | D41 => C D48 (f x y) | D42 => C D49 (f x y) | D43 => C D50 (f x y) | D44 => C D51 (f x y) | D45 => C D52 (f x y) | D46 => C D53 (f x y) | D47 => C D54 (f x y) | D48 => C D55 (f x y) | D49 => C D56 (f x y) | D50 => C D57 (f x y) | D51 => C D58 (f x y) | D52 => C D59 (f x y) | D53 => C D60 (f x y) | D54 => C D61 (f x y) | D55 => C D62 (f x y) | D56 => C D63 (f x y) | D57 => C D0 (g x y) | D58 => C D1 (g x y) | D59 => C D2 (g x y) | D60 => C D3 (g x y) | D61 => C D4 (g x y) | D62 => C D5 (g x y) | D63 => C D6 (g x y) end
    | D8 => match e with | D0 => C D8 (f x y) | D1 => C D9 (f x y) | D2 => C D10 (f x y) | D3 => C D11 (f x y) | D4 => C D12 (f x y) | D5 => C D13 (f x y) | D6 => C D14 (f x y) | D7 => C D15 (f x y) | D8 => C D16 (f x y) | D9 => C D17 (f x y) | D10 => C D18 (f x y) | D11 => C D19 (f x y) | D12 => C D20 (f x y) | D13 => C D21 (f x y) | D14 => C D22 (f x y) | D15 => C D23 (f x y) | D16 => C D24 (f x y) | D17 => C D25 (f x y) | D18 => C D26 (f x y) | D19 => C D27 (f x y) | D20 => C D28 (f x y) | D21 => C D29 (f x y) | D22 => C D30 (f x y) | D23 => C D31 (f x y) | D24 => C D32 (f x y) | D25 => C D33 (f x y) | D26 => C D34 (f x y) | D27 => C D35 (f x y) | D28 => C D36 (f x y) | D29 => C D37 (f x y) | D30 => C D38 (f x y) | D31 => C D39 (f x y) | D32 => C D40 (f x y) | D33 => C D41 (f x y) | D34 => C D42 (f x y) | D35 => C D43 (f x y) | D36 => C D44 (f x y) | D37 => C D45 (f x y) | D38 => C D46 (f x y) | D39 => C D47 (f x y) | D40 => C D48 (f x y) | D41 => C D49 (f x y) | D42 => C D50 (f x y) | D43 => C D51 (f x y) | D44 => C D52 (f x y) | D45 => C D53 (f x y) | D46 => C D54 (f x y) | D47 => C D55 (f x y) | D48 => C D56 (f x y) | D49 => C D57 (f x y) | D50 => C D58 (f x y) | D51 => C D59 (f x y) | D52 => C D60 (f x y) | D53 => C D61 (f x y) | D54 => C D62 (f x y) | D55 => C D63 (f x y) | D56 => C D0 (g x y) | D57 => C D1 (g x y) | D58 => C D2 (g x y) | D59 => C D3 (g x y) | D60 => C D4 (g x y) | D61 => C D5 (g x y) | D62 => C D6 (g x y) | D63 => C D7 (g x y) end
    | D9 => match e with | D0 => C D9 (f x y) | D1 => C D10 (f x y) | D2 => C D11 (f x y) | D3 => C D12 (f x y) | D4 => C D13 (f x y) | D5 => C D14 (f x y) | D6 => C D15 (f x y) | D7 => C D16 (f x y) | D8 => C D17 (f x y) | D9 => C D18 (f x y) | D10 => C D19 (f x y) | D11 => C D20 (f x y) | D12 => C D21 (f x y) | D13 => C D22 (f x y) | D14 => C D23 (f x y) | D15 => C D24 (f x y) | D16 => C D25 (f x y) | D17 => C D26 (f x y) | D18 => C D27 (f x y) | D19 => C D28 (f x y) | D20 => C D29 (f x y) | D21 => C D30 (f x y) | D22 => C D31 (f x y) | D23 => C D32 (f x y) | D24 => C D33 (f x y) | D25 => C D34 (f x y) | D26 => C D35 (f x y) | D27 => C D36 (f x y) | D28 => C D37 (f x y) | D29 => C D38 (f x y) | D30 => C D39 (f x y) | D31 => C D40 (f x y) | D32 => C D41 (f x y) | D33 => C D42 (f x y) | D34 => C D43 (f x y) | D35 => C D44 (f x y) | D36 => C D45 (f x y) | D37 => C D46 (f x y) | D38 => C D47 (f x y) | D39 => C D48 (f x y) | D40 => C D49 (f x y) | D41 => C D50 (f x y) | D42 => C D51 (f x y) | D43 => C D52 (f x y) | D44 => C D53 (f x y) | D45 => C D54 (f x y) | D46 => C D55 (f x y) | D47 => C D56 (f x y) | D48 => C D57 (f x y) | D49 => C D58 (f x y) | D50 => C D59 (f x y) | D51 => C D60 (f x y) | D52 => C D61 (f x y) | D53 => C D62 (f x y) | D54 => C D63 (f x y) | D55 => C D0 (g x y) | D56 => C D1 (g x y) | D57 => C D2 (g x y) | D58 => C D3 (g x y) | D59 => C D4 (g x y) | D60 => C D5 (g x y) | D61 => C D6 (g x y) | D62 => C D7 (g x y) | D63 => C D8 (g x y) end
    | D10 => match e with | D0 => C D10 (f x y) | D1 => C D11 (f x y) | D2 => C D12 (f x y) | D3 => C D13 (f x y) | D4 => C D14 (f x y) | D5 => C D15 (f x y) | D6 => C D16 (f x y) | D7 => C D17 (f x y) | D8 => C D18 (f x y) | D9 => C D19 (f x y) | D10 => C D20 (f x y) | D11 => C D21 (f x y) | D12 => C D22 (f x y) | D13 => C D23 (f x y) | D14 => C D24 (f x y) | D15 => C D25 (f x y) | D16 => C D26 (f x y) | D17 => C D27 (f x y) | D18 => C D28 (f x y) | D19 => C D29 (f x y) | D20 => C D30 (f x y) | D21 => C D31 (f x y) | D22 => C D32 (f x y) | D23 => C D33 (f x y) | D24 => C D34 (f x y) | D25 => C D35 (f x y) | D26 => C D36 (f x y) | D27 => C D37 (f x y) | D28 => C D38 (f x y) | D29 => C D39 (f x y) | D30 => C D40 (f x y) | D31 => C D41 (f x y) | D32 => C D42 (f x y) | D33 => C D43 (f x y) | D34 => C D44 (f x y) | D35 => C D45 (f x y) | D36 => C D46 (f x y) | D37 => C D47 (f x y) | D38 => C D48 (f x y) | D39 => C D49 (f x y) | D40 => C D50 (f x y) | D41 => C D51 (f x y) | D42 => C D52 (f x y) | D43 => C D53 (f x y) | D44 => C D54 (f x y) | D45 => C D55 (f x y) | D46 => C D56 (f x y) | D47 => C D57 (f x y) | D48 => C D58 (f x y) | D49 => C D59 (f x y) | D50 => C D60 (f x y) | D51 => C D61 (f x y) | D52 => C D62 (f x y) | D53 => C D63 (f x y) | D54 => C D0 (g x y) | D55 => C D1 (g x y) | D56 => C D2 (g x y) | D57 => C D3 (g x y) | D58 => C D4 (g x y) | D59 => C D5 (g x y) | D60 => C D6 (g x y) | D61 => C D7 (g x y) | D62 => C D8 (g x y) | D63 => C D9 (g x y) end
    | D11 => match e with | D0 => C D11 (f x y) | D1 => C D12 (f x y) | D2 => C D13 (f x y) | D3 => C D14 (f x y) | D4 => C D15 (f x y) | D5 => C D16 (f x y) | D6 => C D17 (f x y) | D7 => C D18 (f x y) | D8 => C D19 (f x y) | D9 => C D20 (f x y) | D10 => C D21 (f x y) | D11 => C D22 (f x y) | D12 => C D23 (f x y) | D13 => C D24 (f x y) | D14 => C D25 (f x y) | D15 => C D26 (f x y) | D16 => C D27 (f x y) | D17 => C D28 (f x y) | D18 => C D29 (f x y) | D19 => C D30 (f x y) | D20 => C D31 (f x y) | D21 => C D32 (f x y) | D22 => C D33 (f x y) | D23 => C D34 (f x y) | D24 => C D35 (f x y) | D25 => C D36 (f x y) | D26 => C D37 (f x y) | D27 => C D38 (f x y) | D28 => C D39 (f x y) | D29 => C D40 (f x y) | D30 => C D41 (f x y) | D31 => C D42 (f x y) | D32 => C D43 (f x y) | D33 => C D44 (f x y) | D34 => C D45 (f x y) | D35 => C D46 (f x y) | D36 => C D47 (f x y) | D37 => C D48 (f x y) | D38 => C D49 (f x y) | D39 => C D50 (f x y) | D40 => C D51 (f x y) | D41 => C D52 (f x y) | D42 => C D53 (f x y) | D43 => C D54 (f x y) | D44 => C D55 (f x y) | D45 => C D56 (f x y) | D46 => C D57 (f x y) | D47 => C D58 (f x y) | D48 => C D59 (f x y) | D49 => C D60 (f x y) | D50 => C D61 (f x y) | D51 => C D62 (f x y) | D52 => C D63 (f x y) | D53 => C D0 (g x y) | D54 => C D1 (g x y) | D55 => C D2 (g x y) | D56 => C D3 (g x y) | D57 => C D4 (g x y) | D58 => C D5 (g x y) | D59 => C D6 (g x y) | D60 => C D7 (g x y) | D61 => C D8 (g x y) | D62 => C D9 (g x y) | D63 => C D10 (g x y) end
    | D12 => match e with | D0 => C D12 (f x y) | D1 => C D13 (f x y) | D2 => C D14 (f x y) | D3 => C D15 (f x y) | D4 => C D16 (f x y) | D5 => C D17 (f x y) | D6 => C D18 (f x y) | D7 => C D19 (f x y) | D8 => C D20 (f x y) | D9 => C D21 (f x y) | D10 => C D22 (f x y) | D11 => C D23 (f x y) | D12 => C D24 (f x y) | D13 => C D25 (f x y) | D14 => C D26 (f x y) | D15 => C D27 (f x y) | D16 => C D28 (f x y) | D17 => C D29 (f x y) | D18 => C D30 (f x y) | D19 => C D31 (f x y) | D20 => C D32 (f x y) | D21 => C D33 (f x y) | D22 => C D34 (f x y) | D23 => C D35 (f x y) | D24 => C D36 (f x y) | D25 => C D37 (f x y) | D26 => C D38 (f x y) | D27 => C D39 (f x y) | D28 => C D40 (f x y) | D29 => C D41 (f x y) | D30 => C D42 (f x y) | D31 => C D43 (f x y) | D32 => C D44 (f x y) | D33 => C D45 (f x y) | D34 => C D46 (f x y) | D35 => C D47 (f x y) | D36 => C D48 (f x y) | D37 => C D49 (f x y) | D38 => C D50 (f x y) | D39 => C D51 (f x y) | D40 => C D52 (f x y) | D41 => C D53 (f x y) | D42 => C D54 (f x y) | D43 => C D55 (f x y) | D44 => C D56 (f x y) | D45 => C D57 (f x y) | D46 => C D58 (f x y) | D47 => C D59 (f x y) | D48 => C D60 (f x y) | D49 => C D61 (f x y) | D50 => C D62 (f x y) | D51 => C D63 (f x y) | D52 => C D0 (g x y) | D53 => C D1 (g x y) | D54 => C D2 (g x y) | D55 => C D3 (g x y) | D56 => C D4 (g x y) | D57 => C D5 (g x y) | D58 => C D6 (g x y) | D59 => C D7 (g x y) | D60 => C D8 (g x y) | D61 => C D9 (g x y) | D62 => C D10 (g x y) | D63 => C D11 (g x y) end
    | D13 => match e with | D0 => C D13 (f x y) | D1 => C D14 (f x y) | D2 => C D15 (f x y) | D3 => C D16 (f x y) | D4 => C D17 (f x y) | D5 => C D18 (f x y) | D6 => C D19 (f x y) | D7 => C D20 (f x y) | D8 => C D21 (f x y) | D9 => C D22 (f x y) | D10 => C D23 (f x y) | D11 => C D24 (f x y) | D12 => C D25 (f x y) | D13 => C D26 (f x y) | D14 => C D27 (f x y) | D15 => C D28 (f x y) | D16 => C D29 (f x y) | D17 => C D30 (f x y) | D18 => C D31 (f x y) | D19 => C D32 (f x y) | D20 => C D33 (f x y) | D21 => C D34 (f x y) | D22 => C D35 (f x y) | D23 => C D36 (f x y) | D24 => C D37 (f x y) | D25 => C D38 (f x y) | D26 => C D39 (f x y) | D27 => C D40 (f x y) | D28 => C D41 (f x y) | D29 => C D42 (f x y) | D30 => C D43 (f x y) | D31 => C D44 (f x y) | D32 => C D45 (f x y) | D33 => C D46 (f x y) | D34 => C D47 (f x y) | D35 => C D48 (f x y) | D36 => C D49 (f x y) | D37 => C D50 (f x y) | D38 => C D51 (f x y) | D39 => C D52 (f x y) | D40 => C D53 (f x y) | D41 => C D54 (f x y) | D42 => C D55 (f x y) | D43 => C D56 (f x y) | D44 => C D57 (f x y) | D45 => C D58 (f x y) | D46 => C D59 (f x y) | D47 => C D60 (f x y) | D48 => C D61 (f x y) | D49 => C D62 (f x y) | D50 => C D63 (f x y) | D51 => C D0 (g x y) | D52 => C D1 (g x y) | D53 => C D2 (g x y) | D54 => C D3 (g x y) | D55 => C D4 (g x y) | D56 => C D5 (g x y) | D57 => C D6 (g x y) | D58 => C D7 (g x y) | D59 => C D8 (g x y) | D60 => C D9 (g x y) | D61 => C D10 (g x y) | D62 => C D11 (g x y) | D63 => C D12 (g x y) end
    | D14 => match e with | D0 => C D14 (f x y) | D1 => C D15 (f x y) | D2 => C D16 (f x y) | D3 => C D17 (f x y) | D4 => C D18 (f x y) | D5 => C D19 (f x y) | D6 => C D20 (f x y) | D7 => C D21 (f x y) | D8 => C D22 (f x y) | D9 => C D23 (f x y) | D10 => C D24 (f x y) | D11 => C D25 (f x y) | D12 => C D26 (f x y) | D13 => C D27 (f x y) | D14 => C D28 (f x y) | D15 => C D29 (f x y) | D16 => C D30 (f x y) | D17 => C D31 (f x y) | D18 => C D32 (f x y) | D19 => C D33 (f x y) | D20 => C D34 (f x y) | D21 => C D35 (f x y) | D22 => C D36 (f x y) | D23 => C D37 (f x y) | D24 => C D38 (f x y) | D25 => C D39 (f x y) | D26 => C D40 (f x y) | D27 => C D41 (f x y) | D28 => C D42 (f x y) | D29 => C D43 (f x y) | D30 => C D44 (f x y) | D31 => C D45 (f x y) | D32 => C D46 (f x y) | D33 => C D47 (f x y) | D34 => C D48 (f x y) | D35 => C D49 (f x y) | D36 => C D50 (f x y) | D37 => C D51 (f x y) | D38 => C D52 (f x y) | D39 => C D53 (f x y) | D40 => C D54 (f x y) | D41 => C D55 (f x y) | D42 => C D56 (f x y) | D43 => C D57 (f x y) | D44 => C D58 (f x y) | D45 => C D59 (f x y) | D46 => C D60 (f x y) | D47 => C D61 (f x y) | D48 => C D62 (f x y) | D49 => C D63 (f x y) | D50 => C D0 (g x y) | D51 => C D1 (g x y) | D52 => C D2 (g x y) | D53 => C D3 (g x y) | D54 => C D4 (g x y) | D55 => C D5 (g x y) | D56 => C D6 (g x y) | D57 => C D7 (g x y) | D58 => C D8 (g x y) | D59 => C D9 (g x y) | D60 => C D10 (g x y) | D61 => C D11 (g x y) | D62 => C D12 (g x y) | D63 => C D13 (g x y) end
    | D15 => match e with | D0 => C D15 (f x y) | D1 => C D16 (f x y) | D2 => C D17 (f x y) | D3 => C D18 (f x y) | D4 => C D19 (f x y) | D5 => C D20 (f x y) | D6 => C D21 (f x y) | D7 => C D22 (f x y) | D8 => C D23 (f x y) | D9 => C D24 (f x y) | D10 => C D25 (f x y) | D11 => C D26 (f x y) | D12 => C D27 (f x y) | D13 => C D28 (f x y) | D14 => C D29 (f x y) | D15 => C D30 (f x y) | D16 => C D31 (f x y) | D17 => C D32 (f x y) | D18 => C D33 (f x y) | D19 => C D34 (f x y) | D20 => C D35 (f x y) | D21 => C D36 (f x y) | D22 => C D37 (f x y) | D23 => C D38 (f x y) | D24 => C D39 (f x y) | D25 => C D40 (f x y) | D26 => C D41 (f x y) | D27 => C D42 (f x y) | D28 => C D43 (f x y) | D29 => C D44 (f x y) | D30 => C D45 (f x y) | D31 => C D46 (f x y) | D32 => C D47 (f x y) | D33 => C D48 (f x y) | D34 => C D49 (f x y) | D35 => C D50 (f x y) | D36 => C D51 (f x y) | D37 => C D52 (f x y) | D38 => C D53 (f x y) | D39 => C D54 (f x y) | D40 => C D55 (f x y) | D41 => C D56 (f x y) | D42 => C D57 (f x y) | D43 => C D58 (f x y) | D44 => C D59 (f x y) | D45 => C D60 (f x y) | D46 => C D61 (f x y) | D47 => C D62 (f x y) | D48 => C D63 (f x y) | D49 => C D0 (g x y) | D50 => C D1 (g x y) | D51 => C D2 (g x y) | D52 => C D3 (g x y) | D53 => C D4 (g x y) | D54 => C D5 (g x y) | D55 => C D6 (g x y) | D56 => C D7 (g x y) | D57 => C D8 (g x y) | D58 => C D9 (g x y) | D59 => C D10 (g x y) | D60 => C D11 (g x y) | D61 => C D12 (g x y) | D62 => C D13 (g x y) | D63 => C D14 (g x y) end
    | D16 => match e with | D0 => C D16 (f x y) | D1 => C D17 (f x y) | D2 => C D18 (f x y) | D3 => C D19 (f x y) | D4 => C D20 (f x y) | D5 => C D21 (f x y) | D6 => C D22 (f x y) | D7 => C D23 (f x y) | D8 => C D24 (f x y) | D9 => C D25 (f x y) | D10 => C D26 (f x y) | D11 => C D27 (f x y) | D12 => C D28 (f x y) | D13 => C D29 (f x y) | D14 => C D30 (f x y) | D15 => C D31 (f x y) | D16 => C D32 (f x y) | D17 => C D33 (f x y) | D18 => C D34 (f x y) | D19 => C D35 (f x y) | D20 => C D36 (f x y) | D21 => C D37 (f x y) | D22 => C D38 (f x y) | D23 => C D39 (f x y) | D24 => C D40 (f x y) | D25 => C D41 (f x y) | D26 => C D42 (f x y) | D27 => C D43 (f x y) | D28 => C D44 (f x y) | D29 => C D45 (f x y) | D30 => C D46 (f x y) | D31 => C D47 (f x y) | D32 => C D48 (f x y) | D33 => C D49 (f x y) | D34 => C D50 (f x y) | D35 => C D51 (f x y) | D36 => C D52 (f x y) | D37 => C D53 (f x y) | D38 => C D54 (f x y) | D39 => C D55 (f x y) | D40 => C D56 (f x y) | D41 => C D57 (f x y) | D42 => C D58 (f x y) | D43 => C D59 (f x y) | D44 => C D60 (f x y) | D45 => C D61 (f x y) | D46 => C D62 (f x y) | D47 => C D63 (f x y) | D48 => C D0 (g x y) | D49 => C D1 (g x y) | D50 => C D2 (g x y) | D51 => C D3 (g x y) | D52 => C D4 (g x y) | D53 => C D5 (g x y) | D54 => C D6 (g x y) | D55 => C D7 (g x y) | D56 => C D8 (g x y) | D57 => C D9 (g x y) | D58 => C D10 (g x y) | D59 => C D11 (g x y) | D60 => C D12 (g x y) | D61 => C D13 (g x y) | D62 => C D14 (g x y) | D63 => C D15 (g x y) end
    | D17 => match e with | D0 => C D17 (f x y) | D1 => C D18 (f x y) | D2 => C D19 (f x y) | D3 => C D20 (f x y) | D4 => C D21 (f x y) | D5 => C D22 (f x y) | D6 => C D23 (f x y) | D7 => C D24 (f x y) | D8 => C D25 (f x y) | D9 => C D26 (f x y) | D10 => C D27 (f x y) | D11 => C D28 (f x y) | D12 => C D29 (f x y) | D13 => C D30 (f x y) | D14 => C D31 (f x y) | D15 => C D32 (f x y) | D16 => C D33 (f x y) | D17 => C D34 (f x y) | D18 => C D35 (f x y) | D19 => C D36 (f x y) | D20 => C D37 (f x y) | D21 => C D38 (f x y) | D22 => C D39 (f x y) | D23 => C D40 (f x y) | D24 => C D41 (f x y) | D25 => C D42 (f x y) | D26 => C D43 (f x y) | D27 => C D44 (f x y) | D28 => C D45 (f x y) | D29 => C D46 (f x y) | D30 => C D47 (f x y) | D31 => C D48 (f x y) | D32 => C D49 (f x y) | D33 => C D50 (f x y) | D34 => C D51 (f x y) | D35 => C D52 (f x y) | D36 => C D53 (f x y) | D37 => C D54 (f x y) | D38 => C D55 (f x y) | D39 => C D56 (f x y) | D40 => C D57 (f x y) | D41 => C D58 (f x y) | D42 => C D59 (f x y) | D43 => C D60 (f x y) | D44 => C D61 (f x y) | D45 => C D62 (f x y) | D46 => C D63 (f x y) | D47 => C D0 (g x y) | D48 => C D1 (g x y) | D49 => C D2 (g x y) | D50 => C D3 (g x y) | D51 => C D4 (g x y) | D52 => C D5 (g x y) | D53 => C D6 (g x y) | D54 => C D7 (g x y) | D55 => C D8 (g x y) | D56 => C D9 (g x y) | D57 => C D10 (g x y) | D58 => C D11 (g x y) | D59 => C D12 (g x y) | D60 => C D13 (g x y) | D61 => C D14 (g x y) | D62 => C D15 (g x y) | D63 => C D16 (g x y) end
    | D18 => match e with | D0 => C D18 (f x y) | D1 => C D19 (f x y) | D2 => C D20 (f x y) | D3 => C D21 (f x y) | D4 => C D22 (f x y) | D5 => C D23 (f x y) | D6 => C D24 (f x y) | D7 => C D25 (f x y) | D8 => C D26 (f x y) | D9 => C D27 (f x y) | D10 => C D28 (f x y) | D11 => C D29 (f x y) | D12 => C D30 (f x y) | D13 => C D31 (f x y) | D14 => C D32 (f x y) | D15 => C D33 (f x y) | D16 => C D34 (f x y) | D17 => C D35 (f x y) | D18 => C D36 (f x y) | D19 => C D37 (f x y) | D20 => C D38 (f x y) | D21 => C D39 (f x y) | D22 => C D40 (f x y) | D23 => C D41 (f x y) | D24 => C D42 (f x y) | D25 => C D43 (f x y) | D26 => C D44 (f x y) | D27 => C D45 (f x y) | D28 => C D46 (f x y) | D29 => C D47 (f x y) | D30 => C D48 (f x y) | D31 => C D49 (f x y) | D32 => C D50 (f x y) | D33 => C D51 (f x y) | D34 => C D52 (f x y) | D35 => C D53 (f x y) | D36 => C D54 (f x y) | D37 => C D55 (f x y) | D38 => C D56 (f x y) | D39 => C D57 (f x y) | D40 => C D58 (f x y) | D41 => C D59 (f x y) | D42 => C D60 (f x y) | D43 => C D61 (f x y) | D44 => C D62 (f x y) | D45 => C D63 (f x y) | D46 => C D0 (g x y) | D47 => C D1 (g x y) | D48 => C D2 (g x y) | D49 => C D3 (g x y) | D50 => C D4 (g x y) | D51 => C D5 (g x y) | D52 => C D6 (g x y) | D53 => C D7 (g x y) | D54 => C D8 (g x y) | D55 => C D9 (g x y) | D56 => C D10 (g x y) | D57 => C D11 (g x y) | D58 => C D12 (g x y) | D59 => C D13 (g x y) | D60 => C D14 (g x y) | D61 => C D15 (g x y) | D62 => C D16 (g x y) | D63 => C D17 (g x y) end
    | D19 => match e with | D0 => C D19 (f x y) | D1 => C D20 (f x y) | D2 => C D21 (f x y) | D3 => C D22 (f x y) | D4 => C D23 (f x y) | D5 => C D24 (f x y) | D6 => C D25 (f x y) | D7 => C D26 (f x y) | D8 => C D27 (f x y) | D9 => C D28 (f x y) | D10 => C D29 (f x y) | D11 => C D30 (f x y) | D12 => C D31 (f x y) | D13 => C D32 (f x y) | D14 => C D33 (f x y) | D15 => C D34 (f x y) | D16 => C D35 (f x y) | D17 => C D36 (f x y) | D18 => C D37 (f x y) | D19 => C D38 (f x y) | D20 => C D39 (f x y) | D21 => C D40 (f x y) | D22 => C D41 (f x y) | D23 => C D42 (f x y) | D24 => C D43 (f x y) | D25 => C D44 (f x y) | D26 => C D45 (f x y) | D27 => C D46 (f x y) | D28 => C D47 (f x y) | D29 => C D48 (f x y) | D30 => C D49 (f x y) | D31 => C D50 (f x y) | D32 => C D51 (f x y) | D33 => C D52 (f x y) | D34 => C D53 (f x y) | D35 => C D54 (f x y) | D36 => C D55 (f x y) | D37 => C D56 (f x y) | D38 => C D57 (f x y) | D39 => C D58 (f x y) | D40 => C D59 (f x y) | D41 => C D60 (f x y) | D42 => C D61 (f x y) | D43 => C D62 (f x y) | D44 => C D63 (f x y) | D45 => C D0 (g x y) | D46 => C D1 (g x y) | D47 => C D2 (g x y) | D48 => C D3 (g x y) | D49 => C D4 (g x y) | D50 => C D5 (g x y) | D51 => C D6 (g x y) | D52 => C D7 (g x y) | D53 => C D8 (g x y) | D54 => C D9 (g x y) | D55 => C D10 (g x y) | D56 => C D11 (g x y) | D57 => C D12 (g x y) | D58 => C D13 (g x y) | D59 => C D14 (g x y) | D60 => C D15 (g x y) | D61 => C D16 (g x y) | D62 => C D17 (g x y) | D63 => C D18 (g x y) end
    | D20 => match e with | D0 => C D20 (f x y) | D1 => C D21 (f x y) | D2 => C D22 (f x y) | D3 => C D23 (f x y) | D4 => C D24 (f x y) | D5 => C D25 (f x y) | D6 => C D26 (f x y) | D7 => C D27 (f x y) | D8 => C D28 (f x y) | D9 => C D29 (f x y) | D10 => C D30 (f x y) | D11 => C D31 (f x y) | D12 => C D32 (f x y) | D13 => C D33 (f x y) | D14 => C D34 (f x y) | D15 => C D35 (f x y) | D16 => C D36 (f x y) | D17 => C D37 (f x y) | D18 => C D38 (f x y) | D19 => C D39 (f x y) | D20 => C D40 (f x y) | D21 => C D41 (f x y) | D22 => C D42 (f x y) | D23 => C D43 (f x y) | D24 => C D44 (f x y) | D25 => C D45 (f x y) | D26 => C D46 (f x y) | D27 => C D47 (f x y) | D28 => C D48 (f x y) | D29 => C D49 (f x y) | D30 => C D50 (f x y) | D31 => C D51 (f x y) | D32 => C D52 (f x y) | D33 => C D53 (f x y) | D34 => C D54 (f x y) | D35 => C D55 (f x y) | D36 => C D56 (f x y) | D37 => C D57 (f x y) | D38 => C D58 (f x y) | D39 => C D59 (f x y) | D40 => C D60 (f x y) | D41 => C D61 (f x y) | D42 => C D62 (f x y) | D43 => C D63 (f x y) | D44 => C D0 (g x y) | D45 => C D1 (g x y) | D46 => C D2 (g x y) | D47 => C D3 (g x y) | D48 => C D4 (g x y) | D49 => C D5 (g x y) | D50 => C D6 (g x y) | D51 => C D7 (g x y) | D52 => C D8 (g x y) | D53 => C D9 (g x y) | D54 => C D10 (g x y) | D55 => C D11 (g x y) | D56 => C D12 (g x y) | D57 => C D13 (g x y) | D58 => C D14 (g x y) | D59 => C D15 (g x y) | D60 => C D16 (g x y) | D61 => C D17 (g x y) | D62 => C D18 (g x y) | D63 => C D19 (g x y) end
    | D21 => match e with | D0 => C D21 (f x y) | D1 => C D22 (f x y) | D2 => C D23 (f x y) | D3 => C D24 (f x y) | D4 => C D25 (f x y) | D5 => C D26 (f x y) | D6 => C D27 (f x y) | D7 => C D28 (f x y) | D8 => C D29 (f x y) | D9 => C D30 (f x y) | D10 => C D31 (f x y) | D11 => C D32 (f x y) | D12 => C D33 (f x y) | D13 => C D34 (f x y) | D14 => C D35 (f x y) | D15 => C D36 (f x y) | D16 => C D37 (f x y) | D17 => C D38 (f x y) | D18 => C D39 (f x y) | D19 => C D40 (f x y) | D20 => C D41 (f x y) | D21 => C D42 (f x y) | D22 => C D43 (f x y) | D23 => C D44 (f x y) | D24 => C D45 (f x y) | D25 => C D46 (f x y) | D26 => C D47 (f x y) | D27 => C D48 (f x y) | D28 => C D49 (f x y) | D29 => C D50 (f x y) | D30 => C D51 (f x y) | D31 => C D52 (f x y) | D32 => C D53 (f x y) | D33 => C D54 (f x y) | D34 => C D55 (f x y) | D35 => C D56 (f x y) | D36 => C D57 (f x y) | D37 => C D58 (f x y) | D38 => C D59 (f x y) | D39 => C D60 (f x y) | D40 => C D61 (f x y) | D41 => C D62 (f x y) | D42 => C D63 (f x y) | D43 => C D0 (g x y) | D44 => C D1 (g x y) | D45 => C D2 (g x y) | D46 => C D3 (g x y) | D47 => C D4 (g x y) | D48 => C D5 (g x y) | D49 => C D6 (g x y) | D50 => C D7 (g x y) | D51 => C D8 (g x y) | D52 => C D9 (g x y) | D53 => C D10 (g x y) | D54 => C D11 (g x y) | D55 => C D12 (g x y) | D56 => C D13 (g x y) | D57 => C D14 (g x y) | D58 => C D15 (g x y) | D59 => C D16 (g x y) | D60 => C D17 (g x y) | D61 => C D18 (g x y) | D62 => C D19 (g x y) | D63 => C D20 (g x y) end
    | D22 => match e with | D0 => C D22 (f x y) | D1 => C D23 (f x y) | D2 => C D24 (f x y) | D3 => C D25 (f x y) | D4 => C D26 (f x y) | D5 => C D27 (f x y) | D6 => C D28 (f x y) | D7 => C D29 (f x y) | D8 => C D30 (f x y) | D9 => C D31 (f x y) | D10 => C D32 (f x y) | D11 => C D33 (f x y) | D12 => C D34 (f x y) | D13 => C D35 (f x y) | D14 => C D36 (f x y) | D15 => C D37 (f x y) | D16 => C D38 (f x y) | D17 => C D39 (f x y) | D18 => C D40 (f x y) | D19 => C D41 (f x y) | D20 => C D42 (f x y) | D21 => C D43 (f x y) | D22 => C D44 (f x y) | D23 => C D45 (f x y) | D24 => C D46 (f x y) | D25 => C D47 (f x y) | D26 => C D48 (f x y) | D27 => C D49 (f x y) | D28 => C D50 (f x y) | D29 => C D51 (f x y) | D30 => C D52 (f x y) | D31 => C D53 (f x y) | D32 => C D54 (f x y) | D33 => C D55 (f x y) | D34 => C D56 (f x y) | D35 => C D57 (f x y) | D36 => C D58 (f x y) | D37 => C D59 (f x y) | D38 => C D60 (f x y) | D39 => C D61 (f x y) | D40 => C D62 (f x y) | D41 => C D63 (f x y) | D42 => C D0 (g x y) | D43 => C D1 (g x y) | D44 => C D2 (g x y) | D45 => C D3 (g x y) | D46 => C D4 (g x y) | D47 => C D5 (g x y) | D48 => C D6 (g x y) | D49 => C D7 (g x y) | D50 => C D8 (g x y) | D51 => C D9 (g x y) | D52 => C D10 (g x y) | D53 => C D11 (g x y) | D54 => C D12 (g x y) | D55 => C D13 (g x y) | D56 => C D14 (g x y) | D57 => C D15 (g x y) | D58 => C D16 (g x y) | D59 => C D17 (g x y) | D60 => C D18 (g x y) | D61 => C D19 (g x y) | D62 => C D20 (g x y) | D63 => C D21 (g x y) end
    | D23 => match e with | D0 => C D23 (f x y) | D1 => C D24 (f x y) | D2 => C D25 (f x y) | D3 => C D26 (f x y) | D4 => C D27 (f x y) | D5 => C D28 (f x y) | D6 => C D29 (f x y) | D7 => C D30 (f x y) | D8 => C D31 (f x y) | D9 => C D32 (f x y) | D10 => C D33 (f x y) | D11 => C D34 (f x y) | D12 => C D35 (f x y) | D13 => C D36 (f x y) | D14 => C D37 (f x y) | D15 => C D38 (f x y) | D16 => C D39 (f x y) | D17 => C D40 (f x y) | D18 => C D41 (f x y) | D19 => C D42 (f x y) | D20 => C D43 (f x y) | D21 => C D44 (f x y) | D22 => C D45 (f x y) | D23 => C D46 (f x y) | D24 => C D47 (f x y) | D25 => C D48 (f x y) | D26 => C D49 (f x y) | D27 => C D50 (f x y) | D28 => C D51 (f x y) | D29 => C D52 (f x y) | D30 => C D53 (f x y) | D31 => C D54 (f x y) | D32 => C D55 (f x y) | D33 => C D56 (f x y) | D34 => C D57 (f x y) | D35 => C D58 (f x y) | D36 => C D59 (f x y) | D37 => C D60 (f x y) | D38 => C D61 (f x y) | D39 => C D62 (f x y) | D40 => C D63 (f x y) | D41 => C D0 (g x y) | D42 => C D1 (g x y) | D43 => C D2 (g x y) | D44 => C D3 (g x y) | D45 => C D4 (g x y) | D46 => C D5 (g x y) | D47 => C D6 (g x y) | D48 => C D7 (g x y) | D49 => C D8 (g x y) | D50 => C D9 (g x y) | D51 => C D10 (g x y) | D52 => C D11 (g x y) | D53 => C D12 (g x y) | D54 => C D13 (g x y) | D55 => C D14 (g x y) | D56 => C D15 (g x y) | D57 => C D16 (g x y) | D58 => C D17 (g x y) | D59 => C D18 (g x y) | D60 => C D19 (g x y) | D61 => C D20 (g x y) | D62 => C D21 (g x y) | D63 => C D22 (g x y) end
    | D24 => match e with | D0 => C D24 (f x y) | D1 => C D25 (f x y) | D2 => C D26 (f x y) | D3 => C D27 (f x y) | D4 => C D28 (f x y) | D5 => C D29 (f x y) | D6 => C D30 (f x y) | D7 => C D31 (f x y) | D8 => C D32 (f x y) | D9 => C D33 (f x y) | D10 => C D34 (f x y) | D11 => C D35 (f x y) | D12 => C D36 (f x y) | D13 => C D37 (f x y) | D14 => C D38 (f x y) | D15 => C D39 (f x y) | D16 => C D40 (f x y) | D17 => C D41 (f x y) | D18 => C D42 (f x y) | D19 => C D43 (f x y) | D20 => C D44 (f x y) | D21 => C D45 (f x y) | D22 => C D46 (f x y) | D23 => C D47 (f x y) | D24 => C D48 (f x y) | D25 => C D49 (f x y) | D26 => C D50 (f x y) | D27 => C D51 (f x y) | D28 => C D52 (f x y) | D29 => C D53 (f x y) | D30 => C D54 (f x y) | D31 => C D55 (f x y) | D32 => C D56 (f x y) | D33 => C D57 (f x y) | D34 => C D58 (f x y) | D35 => C D59 (f x y) | D36 => C D60 (f x y) | D37 => C D61 (f x y) | D38 => C D62 (f x y) | D39 => C D63 (f x y) | D40 => C D0 (g x y) | D41 => C D1 (g x y) | D42 => C D2 (g x y) | D43 => C D3 (g x y) | D44 => C D4 (g x y) | D45 => C D5 (g x y) | D46 => C D6 (g x y) | D47 => C D7 (g x y) | D48 => C D8 (g x y) | D49 => C D9 (g x y) | D50 => C D10 (g x y) | D51 => C D11 (g x y) | D52 => C D12 (g x y) | D53 => C D13 (g x y) | D54 => C D14 (g x y) | D55 => C D15 (g x y) | D56 => C D16 (g x y) | D57 => C D17 (g x y) | D58 => C D18 (g x y) | D59 => C D19 (g x y) | D60 => C D20 (g x y) | D61 => C D21 (g x y) | D62 => C D22 (g x y) | D63 => C D23 (g x y) end
    | D25 => match e with | D0 => C D25 (f x y) | D1 => C D26 (f x y) | D2 => C D27 (f x y) | D3 => C D28 (f x y) | D4 => C D29 (f x y) | D5 => C D30 (f x y) | D6 => C D31 (f x y) | D7 => C D32 (f x y) | D8 => C D33 (f x y) | D9 => C D34 (f x y) | D10 => C D35 (f x y) | D11 => C D36 (f x y) | D12 => C D37 (f x y) | D13 => C D38 (f x y) | D14 => C D39 (f x y) | D15 => C D40 (f x y) | D16 => C D41 (f x y) | D17 => C D42 (f x y) | D18 => C D43 (f x y) | D19 => C D44 (f x y) | D20 => C D45 (f x y) | D21 => C D46 (f x y) | D22 => C D47 (f x y) | D23 => C D48 (f x y) | D24 => C D49 (f x y) | D25 => C D50 (f x y) | D26 => C D51 (f x y) | D27 => C D52 (f x y) | D28 => C D53 (f x y) | D29 => C D54 (f x y) | D30 => C D55 (f x y) | D31 => C D56 (f x y) | D32 => C D57 (f x y) | D33 => C D58 (f x y) | D34 => C D59 (f x y) | D35 => C D60 (f x y) | D36 => C D61 (f x y) | D37 => C D62 (f x y) | D38 => C D63 (f x y) | D39 => C D0 (g x y) | D40 => C D1 (g x y) | D41 => C D2 (g x y) | D42 => C D3 (g x y) | D43 => C D4 (g x y) | D44 => C D5 (g x y) | D45 => C D6 (g x y) | D46 => C D7 (g x y) | D47 => C D8 (g x y) | D48 => C D9 (g x y) | D49 => C D10 (g x y) | D50 => C D11 (g x y) | D51 => C D12 (g x y) | D52 => C D13 (g x y) | D53 => C D14 (g x y) | D54 => C D15 (g x y) | D55 => C D16 (g x y) | D56 => C D17 (g x y) | D57 => C D18 (g x y) | D58 => C D19 (g x y) | D59 => C D20 (g x y) | D60 => C D21 (g x y) | D61 => C D22 (g x y) | D62 => C D23 (g x y) | D63 => C D24 (g x y) end
    | D26 => match e with | D0 => C D26 (f x y) | D1 => C D27 (f x y) | D2 => C D28 (f x y) | D3 => C D29 (f x y) | D4 => C D30 (f x y) | D5 => C D31 (f x y) | D6 => C D32 (f x y) | D7 => C D33 (f x y) | D8 => C D34 (f x y) | D9 => C D35 (f x y) | D10 => C D36 (f x y) | D11 => C D37 (f x y) | D12 => C D38 (f x y) | D13 => C D39 (f x y) | D14 => C D40 (f x y) | D15 => C D41 (f x y) | D16 => C D42 (f x y) | D17 => C D43 (f x y) | D18 => C D44 (f x y) | D19 => C D45 (f x y) | D20 => C D46 (f x y) | D21 => C D47 (f x y) | D22 => C D48 (f x y) | D23 => C D49 (f x y) | D24 => C D50 (f x y) | D25 => C D51 (f x y) | D26 => C D52 (f x y) | D27 => C D53 (f x y) | D28 => C D54 (f x y) | D29 => C D55 (f x y) | D30 => C D56 (f x y) | D31 => C D57 (f x y) | D32 => C D58 (f x y) | D33 => C D59 (f x y) | D34 => C D60 (f x y) | D35 => C D61 (f x y) | D36 => C D62 (f x y) | D37 => C D63 (f x y) | D38 => C D0 (g x y) | D39 => C D1 (g x y) | D40 => C D2 (g x y) | D41 => C D3 (g x y) | D42 => C D4 (g x y) | D43 => C D5 (g x y) | D44 => C D6 (g x y) | D45 => C D7 (g x y) | D46 => C D8 (g x y) | D47 => C D9 (g x y) | D48 => C D10 (g x y) | D49 => C D11 (g x y) | D50 => C D12 (g x y) | D51 => C D13 (g x y) | D52 => C D14 (g x y) | D53 => C D15 (g x y) | D54 => C D16 (g x y) | D55 => C D17 (g x y) | D56 => C D18 (g x y) | D57 => C D19 (g x y) | D58 => C D20 (g x y) | D59 => C D21 (g x y) | D60 => C D22 (g x y) | D61 => C D23 (g x y) | D62 => C D24 (g x y) | D63 => C D25 (g x y) end
    | D27 => match e with | D0 => C D27 (f x y) | D1 => C D28 (f x y) | D2 => C D29 (f x y) | D3 => C D30 (f x y) | D4 => C D31 (f x y) | D5 => C D32 (f x y) | D6 => C D33 (f x y) | D7 => C D34 (f x y) | D8 => C D35 (f x y) | D9 => C D36 (f x y) | D10 => C D37 (f x y) | D11 => C D38 (f x y) | D12 => C D39 (f x y) | D13 => C D40 (f x y) | D14 => C D41 (f x y) | D15 => C D42 (f x y) | D16 => C D43 (f x y) | D17 => C D44 (f x y) | D18 => C D45 (f x y) | D19 => C D46 (f x y) | D20 => C D47 (f x y) | D21 => C D48 (f x y) | D22 => C D49 (f x y) | D23 => C D50 (f x y) | D24 => C D51 (f x y) | D25 => C D52 (f x y) | D26 => C D53 (f x y) | D27 => C D54 (f x y) | D28 => C D55 (f x y) | D29 => C D56 (f x y) | D30 => C D57 (f x y) | D31 => C D58 (f x y) | D32 => C D59 (f x y) | D33 => C D60 (f x y) | D34 => C D61 (f x y) | D35 => C D62 (f x y) | D36 => C D63 (f x y) | D37 => C D0 (g x y) | D38 => C D1 (g x y) | D39 => C D2 (g x y) | D40 => C D3 (g x y) | D41 => C D4 (g x y) | D42 => C D5 (g x y) | D43 => C D6 (g x y) | D44 => C D7 (g x y) | D45 => C D8 (g x y) | D46 => C D9 (g x y) | D47 => C D10 (g x y) | D48 => C D11 (g x y) | D49 => C D12 (g x y) | D50 => C D13 (g x y) | D51 => C D14 (g x y) | D52 => C D15 (g x y) | D53 => C D16 (g x y) | D54 => C D17 (g x y) | D55 => C D18 (g x y) | D56 => C D19 (g x y) | D57 => C D20 (g x y) | D58 => C D21 (g x y) | D59 => C D22 (g x y) | D60 => C D23 (g x y) | D61 => C D24 (g x y) | D62 => C D25 (g x y) | D63 => C D26 (g x y) end
    | D28 => match e with | D0 => C D28 (f x y) | D1 => C D29 (f x y) | D2 => C D30 (f x y) | D3 => C D31 (f x y) | D4 => C D32 (f x y) | D5 => C D33 (f x y) | D6 => C D34 (f x y) | D7 => C D35 (f x y) | D8 => C D36 (f x y) | D9 => C D37 (f x y) | D10 => C D38 (f x y) | D11 => C D39 (f x y) | D12 => C D40 (f x y) | D13 => C D41 (f x y) | D14 => C D42 (f x y) | D15 => C D43 (f x y) | D16 => C D44 (f x y) | D17 => C D45 (f x y) | D18 => C D46 (f x y) | D19 => C D47 (f x y) | D20 => C D48 (f x y) | D21 => C D49 (f x y) | D22 => C D50 (f x y) | D23 => C D51 (f x y) | D24 => C D52 (f x y) | D25 => C D53 (f x y) | D26 => C D54 (f x y) | D27 => C D55 (f x y) | D28 => C D56 (f x y) | D29 => C D57 (f x y) | D30 => C D58 (f x y) | D31 => C D59 (f x y) | D32 => C D60 (f x y) | D33 => C D61 (f x y) | D34 => C D62 (f x y) | D35 => C D63 (f x y) | D36 => C D0 (g x y) | D37 => C D1 (g x y) | D38 => C D2 (g x y) | D39 => C D3 (g x y) | D40 => C D4 (g x y) | D41 => C D5 (g x y) | D42 => C D6 (g x y) | D43 => C D7 (g x y) | D44 => C D8 (g x y) | D45 => C D9 (g x y) | D46 => C D10 (g x y) | D47 => C D11 (g x y) | D48 => C D12 (g x y) | D49 => C D13 (g x y) | D50 => C D14 (g x y) | D51 => C D15 (g x y) | D52 => C D16 (g x y) | D53 => C D17 (g x y) | D54 => C D18 (g x y) | D55 => C D19 (g x y) | D56 => C D20 (g x y) | D57 => C D21 (g x y) | D58 => C D22 (g x y) | D59 => C D23 (g x y) | D60 => C D24 (g x y) | D61 => C D25 (g x y) | D62 => C D26 (g x y) | D63 => C D27 (g x y) end
    | D29 => match e with | D0 => C D29 (f x y) | D1 => C D30 (f x y) | D2 => C D31 (f x y) | D3 => C D32 (f x y) | D4 => C D33 (f x y) | D5 => C D34 (f x y) | D6 => C D35 (f x y) | D7 => C D36 (f x y) | D8 => C D37 (f x y) | D9 => C D38 (f x y) | D10 => C D39 (f x y) | D11 => C D40 (f x y) | D12 => C D41 (f x y) | D13 => C D42 (f x y) | D14 => C D43 (f x y) | D15 => C D44 (f x y) | D16 => C D45 (f x y) | D17 => C D46 (f x y) | D18 => C D47 (f x y) | D19 => C D48 (f x y) | D20 => C D49 (f x y) | D21 => C D50 (f x y) | D22 => C D51 (f x y) | D23 => C D52 (f x y) | D24 => C D53 (f x y) | D25 => C D54 (f x y) | D26 => C D55 (f x y) | D27 => C D56 (f x y) | D28 => C D57 (f x y) | D29 => C D58 (f x y) | D30 => C D59 (f x y) | D31 => C D60 (f x y) | D32 => C D61 (f x y) | D33 => C D62 (f x y) | D34 => C D63 (f x y) | D35 => C D0 (g x y) | D36 => C D1 (g x y) | D37 => C D2 (g x y) | D38 => C D3 (g x y) | D39 => C D4 (g x y) | D40 => C D5 (g x y) | D41 => C D6 (g x y) | D42 => C D7 (g x y) | D43 => C D8 (g x y) | D44 => C D9 (g x y) | D45 => C D10 (g x y) | D46 => C D11 (g x y) | D47 => C D12 (g x y) | D48 => C D13 (g x y) | D49 => C D14 (g x y) | D50 => C D15 (g x y) | D51 => C D16 (g x y) | D52 => C D17 (g x y) | D53 => C D18 (g x y) | D54 => C D19 (g x y) | D55 => C D20 (g x y) | D56 => C D21 (g x y) | D57 => C D22 (g x y) | D58 => C D23 (g x y) | D59 => C D24 (g x y) | D60 => C D25 (g x y) | D61 => C D26 (g x y) | D62 => C D27 (g x y) | D63 => C D28 (g x y) end
    | D30 => match e with | D0 => C D30 (f x y) | D1 => C D31 (f x y) | D2 => C D32 (f x y) | D3 => C D33 (f x y) | D4 => C D34 (f x y) | D5 => C D35 (f x y) | D6 => C D36 (f x y) | D7 => C D37 (f x y) | D8 => C D38 (f x y) | D9 => C D39 (f x y) | D10 => C D40 (f x y) | D11 => C D41 (f x y) | D12 => C D42 (f x y) | D13 => C D43 (f x y) | D14 => C D44 (f x y) | D15 => C D45 (f x y) | D16 => C D46 (f x y) | D17 => C D47 (f x y) | D18 => C D48 (f x y) | D19 => C D49 (f x y) | D20 => C D50 (f x y) | D21 => C D51 (f x y) | D22 => C D52 (f x y) | D23 => C D53 (f x y) | D24 => C D54 (f x y) | D25 => C D55 (f x y) | D26 => C D56 (f x y) | D27 => C D57 (f x y) | D28 => C D58 (f x y) | D29 => C D59 (f x y) | D30 => C D60 (f x y) | D31 => C D61 (f x y) | D32 => C D62 (f x y) | D33 => C D63 (f x y) | D34 => C D0 (g x y) | D35 => C D1 (g x y) | D36 => C D2 (g x y) | D37 => C D3 (g x y) | D38 => C D4 (g x y) | D39 => C D5 (g x y) | D40 => C D6 (g x y) | D41 => C D7 (g x y) | D42 => C D8 (g x y) | D43 => C D9 (g x y) | D44 => C D10 (g x y) | D45 => C D11 (g x y) | D46 => C D12 (g x y) | D47 => C D13 (g x y) | D48 => C D14 (g x y) | D49 => C D15 (g x y) | D50 => C D16 (g x y) | D51 => C D17 (g x y) | D52 => C D18 (g x y) | D53 => C D19 (g x y) | D54 => C D20 (g x y) | D55 => C D21 (g x y) | D56 => C D22 (g x y) | D57 => C D23 (g x y) | D58 => C D24 (g x y) | D59 => C D25 (g x y) | D60 => C D26 (g x y) | D61 => C D27 (g x y) | D62 => C D28 (g x y) | D63 => C D29 (g x y) end
    | D31 => match e with | D0 => C D31 (f x y) | D1 => C D32 (f x y) | D2 => C D33 (f x y) | D3 => C D34 (f x y) | D4 => C D35 (f x y) | D5 => C D36 (f x y) | D6 => C D37 (f x y) | D7 => C D38 (f x y) | D8 => C D39 (f x y) | D9 => C D40 (f x y) | D10 => C D41 (f x y) | D11 => C D42 (f x y) | D12 => C D43 (f x y) | D13 => C D44 (f x y) | D14 => C D45 (f x y) | D15 => C D46 (f x y) | D16 => C D47 (f x y) | D17 => C D48 (f x y) | D18 => C D49 (f x y) | D19 => C D50 (f x y) | D20 => C D51 (f x y) | D21 => C D52 (f x y) | D22 => C D53 (f x y) | D23 => C D54 (f x y) | D24 => C D55 (f x y) | D25 => C D56 (f x y) | D26 => C D57 (f x y) | D27 => C D58 (f x y) | D28 => C D59 (f x y) | D29 => C D60 (f x y) | D30 => C D61 (f x y) | D31 => C D62 (f x y) | D32 => C D63 (f x y) | D33 => C D0 (g x y) | D34 => C D1 (g x y) | D35 => C D2 (g x y) | D36 => C D3 (g x y) | D37 => C D4 (g x y) | D38 => C D5 (g x y) | D39 => C D6 (g x y) | D40 => C D7 (g x y) | D41 => C D8 (g x y) | D42 => C D9 (g x y) | D43 => C D10 (g x y) | D44 => C D11 (g x y) | D45 => C D12 (g x y) | D46 => C D13 (g x y) | D47 => C D14 (g x y) | D48 => C D15 (g x y) | D49 => C D16 (g x y) | D50 => C D17 (g x y) | D51 => C D18 (g x y) | D52 => C D19 (g x y) | D53 => C D20 (g x y) | D54 => C D21 (g x y) | D55 => C D22 (g x y) | D56 => C D23 (g x y) | D57 => C D24 (g x y) | D58 => C D25 (g x y) | D59 => C D26 (g x y) | D60 => C D27 (g x y) | D61 => C D28 (g x y) | D62 => C D29 (g x y) | D63 => C D30 (g x y) end
    | D32 => match e with | D0 => C D32 (f x y) | D1 => C D33 (f x y) | D2 => C D34 (f x y) | D3 => C D35 (f x y) | D4 => C D36 (f x y) | D5 => C D37 (f x y) | D6 => C D38 (f x y) | D7 => C D39 (f x y) | D8 => C D40 (f x y) | D9 => C D41 (f x y) | D10 => C D42 (f x y) | D11 => C D43 (f x y) | D12 => C D44 (f x y) | D13 => C D45 (f x y) | D14 => C D46 (f x y) | D15 => C D47 (f x y) | D16 => C D48 (f x y) | D17 => C D49 (f x y) | D18 => C D50 (f x y) | D19 => C D51 (f x y) | D20 => C D52 (f x y) | D21 => C D53 (f x y) | D22 => C D54 (f x y) | D23 => C D55 (f x y) | D24 => C D56 (f x y) | D25 => C D57 (f x y) | D26 => C D58 (f x y) | D27 => C D59 (f x y) | D28 => C D60 (f x y) | D29 => C D61 (f x y) | D30 => C D62 (f x y) | D31 => C D63 (f x y) | D32 => C D0 (g x y) | D33 => C D1 (g x y) | D34 => C D2 (g x y) | D35 => C D3 (g x y) | D36 => C D4 (g x y) | D37 => C D5 (g x y) | D38 => C D6 (g x y) | D39 => C D7 (g x y) | D40 => C D8 (g x y) | D41 => C D9 (g x y) | D42 => C D10 (g x y) | D43 => C D11 (g x y) | D44 => C D12 (g x y) | D45 => C D13 (g x y) | D46 => C D14 (g x y) | D47 => C D15 (g x y) | D48 => C D16 (g x y) | D49 => C D17 (g x y) | D50 => C D18 (g x y) | D51 => C D19 (g x y) | D52 => C D20 (g x y) | D53 => C D21 (g x y) | D54 => C D22 (g x y) | D55 => C D23 (g x y) | D56 => C D24 (g x y) | D57 => C D25 (g x y) | D58 => C D26 (g x y) | D59 => C D27 (g x y) | D60 => C D28 (g x y) | D61 => C D29 (g x y) | D62 => C D30 (g x y) | D63 => C D31 (g x y) end
    | D33 => match e with | D0 => C D33 (f x y) | D1 => C D34 (f x y) | D2 => C D35 (f x y) | D3 => C D36 (f x y) | D4 => C D37 (f x y) | D5 => C D38 (f x y) | D6 => C D39 (f x y) | D7 => C D40 (f x y) | D8 => C D41 (f x y) | D9 => C D42 (f x y) | D10 => C D43 (f x y) | D11 => C D44 (f x y) | D12 => C D45 (f x y) | D13 => C D46 (f x y) | D14 => C D47 (f x y) | D15 => C D48 (f x y) | D16 => C D49 (f x y) | D17 => C D50 (f x y) | D18 => C D51 (f x y) | D19 => C D52 (f x y) | D20 => C D53 (f x y) | D21 => C D54 (f x y) | D22 => C D55 (f x y) | D23 => C D56 (f x y) | D24 => C D57 (f x y) | D25 => C D58 (f x y) | D26 => C D59 (f x y) | D27 => C D60 (f x y) | D28 => C D61 (f x y) | D29 => C D62 (f x y) | D30 => C D63 (f x y) | D31 => C D0 (g x y) | D32 => C D1 (g x y) | D33 => C D2 (g x y) | D34 => C D3 (g x y) | D35 => C D4 (g x y) | D36 => C D5 (g x y) | D37 => C D6 (g x y) | D38 => C D7 (g x y) | D39 => C D8 (g x y) | D40 => C D9 (g x y) | D41 => C D10 (g x y) | D42 => C D11 (g x y) | D43 => C D12 (g x y) | D44 => C D13 (g x y) | D45 => C D14 (g x y) | D46 => C D15 (g x y) | D47 => C D16 (g x y) | D48 => C D17 (g x y) | D49 => C D18 (g x y) | D50 => C D19 (g x y) | D51 => C D20 (g x y) | D52 => C D21 (g x y) | D53 => C D22 (g x y) | D54 => C D23 (g x y) | D55 => C D24 (g x y) | D56 => C D25 (g x y) | D57 => C D26 (g x y) | D58 => C D27 (g x y) | D59 => C D28 (g x y) | D60 => C D29 (g x y) | D61 => C D30 (g x y) | D62 => C D31 (g x y) | D63 => C D32 (g x y) end
    | D34 => match e with | D0 => C D34 (f x y) | D1 => C D35 (f x y) | D2 => C D36 (f x y) | D3 => C D37 (f x y) | D4 => C D38 (f x y) | D5 => C D39 (f x y) | D6 => C D40 (f x y) | D7 => C D41 (f x y) | D8 => C D42 (f x y) | D9 => C D43 (f x y) | D10 => C D44 (f x y) | D11 => C D45 (f x y) | D12 => C D46 (f x y) | D13 => C D47 (f x y) | D14 => C D48 (f x y) | D15 => C D49 (f x y) | D16 => C D50 (f x y) | D17 => C D51 (f x y) | D18 => C D52 (f x y) | D19 => C D53 (f x y) | D20 => C D54 (f x y) | D21 => C D55 (f x y) | D22 => C D56 (f x y) | D23 => C D57 (f x y) | D24 => C D58 (f x y) | D25 => C D59 (f x y) | D26 => C D60 (f x y) | D27 => C D61 (f x y) | D28 => C D62 (f x y) | D29 => C D63 (f x y) | D30 => C D0 (g x y) | D31 => C D1 (g x y) | D32 => C D2 (g x y) | D33 => C D3 (g x y) | D34 => C D4 (g x y) | D35 => C D5 (g x y) | D36 => C D6 (g x y) | D37 => C D7 (g x y) | D38 => C D8 (g x y) | D39 => C D9 (g x y) | D40 => C D10 (g x y) | D41 => C D11 (g x y) | D42 => C D12 (g x y) | D43 => C D13 (g x y) | D44 => C D14 (g x y) | D45 => C D15 (g x y) | D46 => C D16 (g x y) | D47 => C D17 (g x y) | D48 => C D18 (g x y) | D49 => C D19 (g x y) | D50 => C D20 (g x y) | D51 => C D21 (g x y) | D52 => C D22 (g x y) | D53 => C D23 (g x y) | D54 => C D24 (g x y) | D55 => C D25 (g x y) | D56 => C D26 (g x y) | D57 => C D27 (g x y) | D58 => C D28 (g x y) | D59 => C D29 (g x y) | D60 => C D30 (g x y) | D61 => C D31 (g x y) | D62 => C D32 (g x y) | D63 => C D33 (g x y) end
    | D35 => match e with | D0 => C D35 (f x y) | D1 => C D36 (f x y) | D2 => C D37 (f x y) | D3 => C D38 (f x y) | D4 => C D39 (f x y) | D5 => C D40 (f x y) | D6 => C D41 (f x y) | D7 => C D42 (f x y) | D8 => C D43 (f x y) | D9 => C D44 (f x y) | D10 => C D45 (f x y) | D11 => C D46 (f x y) | D12 => C D47 (f x y) | D13 => C D48 (f x y) | D14 => C D49 (f x y) | D15 => C D50 (f x y) | D16 => C D51 (f x y) | D17 => C D52 (f x y) | D18 => C D53 (f x y) | D19 => C D54 (f x y) | D20 => C D55 (f x y) | D21 => C D56 (f x y) | D22 => C D57 (f x y) | D23 => C D58 (f x y) | D24 => C D59 (f x y) | D25 => C D60 (f x y) | D26 => C D61 (f x y) | D27 => C D62 (f x y) | D28 => C D63 (f x y) | D29 => C D0 (g x y) | D30 => C D1 (g x y) | D31 => C D2 (g x y) | D32 => C D3 (g x y) | D33 => C D4 (g x y) | D34 => C D5 (g x y) | D35 => C D6 (g x y) | D36 => C D7 (g x y) | D37 => C D8 (g x y) | D38 => C D9 (g x y) | D39 => C D10 (g x y) | D40 => C D11 (g x y) | D41 => C D12 (g x y) | D42 => C D13 (g x y) | D43 => C D14 (g x y) | D44 => C D15 (g x y) | D45 => C D16 (g x y) | D46 => C D17 (g x y) | D47 => C D18 (g x y) | D48 => C D19 (g x y) | D49 => C D20 (g x y) | D50 => C D21 (g x y) | D51 => C D22 (g x y) | D52 => C D23 (g x y) | D53 => C D24 (g x y) | D54 => C D25 (g x y) | D55 => C D26 (g x y) | D56 => C D27 (g x y) | D57 => C D28 (g x y) | D58 => C D29 (g x y) | D59 => C D30 (g x y) | D60 => C D31 (g x y) | D61 => C D32 (g x y) | D62 => C D33 (g x y) | D63 => C D34 (g x y) end
    | D36 => match e with | D0 => C D36 (f x y) | D1 => C D37 (f x y) | D2 => C D38 (f x y) | D3 => C D39 (f x y) | D4 => C D40 (f x y) | D5 => C D41 (f x y) | D6 => C D42 (f x y) | D7 => C D43 (f x y) | D8 => C D44 (f x y) | D9 => C D45 (f x y) | D10 => C D46 (f x y) | D11 => C D47 (f x y) | D12 => C D48 (f x y) | D13 => C D49 (f x y) | D14 => C D50 (f x y) | D15 => C D51 (f x y) | D16 => C D52 (f x y) | D17 => C D53 (f x y) | D18 => C D54 (f x y) | D19 => C D55 (f x y) | D20 => C D56 (f x y) | D21 => C D57 (f x y) | D22 => C D58 (f x y) | D23 => C D59 (f x y) | D24 => C D60 (f x y) | D25 => C D61 (f x y) | D26 => C D62 (f x y) | D27 => C D63 (f x y) | D28 => C D0 (g x y) | D29 => C D1 (g x y) | D30 => C D2 (g x y) | D31 => C D3 (g x y) | D32 => C D4 (g x y) | D33 => C D5 (g x y) | D34 => C D6 (g x y) | D35 => C D7 (g x y) | D36 => C D8 (g x y) | D37 => C D9 (g x y) | D38 => C D10 (g x y) | D39 => C D11 (g x y) | D40 => C D12 (g x y) | D41 => C D13 (g x y) | D42 => C D14 (g x y) | D43 => C D15 (g x y) | D44 => C D16 (g x y) | D45 => C D17 (g x y) | D46 => C D18 (g x y) | D47 => C D19 (g x y) | D48 => C D20 (g x y) | D49 => C D21 (g x y) | D50 => C D22 (g x y) | D51 => C D23 (g x y) | D52 => C D24 (g x y) | D53 => C D25 (g x y) | D54 => C D26 (g x y) | D55 => C D27 (g x y) | D56 => C D28 (g x y) | D57 => C D29 (g x y) | D58 => C D30 (g x y) | D59 => C D31 (g x y) | D60 => C D32 (g x y) | D61 => C D33 (g x y) | D62 => C D34 (g x y) | D63 => C D35 (g x y) end
    | D37 => match e with | D0 => C D37 (f x y) | D1 => C D38 (f x y) | D2 => C D39 (f x y) | D3 => C D40 (f x y) | D4 => C D41 (f x y) | D5 => C D42 (f x y) | D6 => C D43 (f x y) | D7 => C D44 (f x y) | D8 => C D45 (f x y) | D9 => C D46 (f x y) | D10 => C D47 (f x y) | D11 => C D48 (f x y) | D12 => C D49 (f x y) | D13 => C D50 (f x y) | D14 => C D51 (f x y) | D15 => C D52 (f x y) | D16 => C D53 (f x y) | D17 => C D54 (f x y) | D18 => C D55 (f x y) | D19 => C D56 (f x y) | D20 => C D57 (f x y) | D21 => C D58 (f x y) | D22 => C D59 (f x y) | D23 => C D60 (f x y) | D24 => C D61 (f x y) | D25 => C D62 (f x y) | D26 => C D63 (f x y) | D27 => C D0 (g x y) | D28 => C D1 (g x y) | D29 => C D2 (g x y) | D30 => C D3 (g x y) | D31 => C D4 (g x y) | D32 => C D5 (g x y) | D33 => C D6 (g x y) | D34 => C D7 (g x y) | D35 => C D8 (g x y) | D36 => C D9 (g x y) | D37 => C D10 (g x y) | D38 => C D11 (g x y) | D39 => C D12 (g x y) | D40 => C D13 (g x y) | D41 => C D14 (g x y) | D42 => C D15 (g x y) | D43 => C D16 (g x y) | D44 => C D17 (g x y) | D45 => C D18 (g x y) | D46 => C D19 (g x y) | D47 => C D20 (g x y) | D48 => C D21 (g x y) | D49 => C D22 (g x y) | D50 => C D23 (g x y) | D51 => C D24 (g x y) | D52 => C D25 (g x y) | D53 => C D26 (g x y) | D54 => C D27 (g x y) | D55 => C D28 (g x y) | D56 => C D29 (g x y) | D57 => C D30 (g x y) | D58 => C D31 (g x y) | D59 => C D32 (g x y) | D60 => C D33 (g x y) | D61 => C D34 (g x y) | D62 => C D35 (g x y) | D63 => C D36 (g x y) end
    | D38 => match e with | D0 => C D38 (f x y) | D1 => C D39 (f x y) | D2 => C D40 (f x y) | D3 => C D41 (f x y) | D4 => C D42 (f x y) | D5 => C D43 (f x y) | D6 => C D44 (f x y) | D7 => C D45 (f x y) | D8 => C D46 (f x y) | D9 => C D47 (f x y) | D10 => C D48 (f x y) | D11 => C D49 (f x y) | D12 => C D50 (f x y) | D13 => C D51 (f x y) | D14 => C D52 (f x y) | D15 => C D53 (f x y) | D16 => C D54 (f x y) | D17 => C D55 (f x y) | D18 => C D56 (f x y) | D19 => C D57 (f x y) | D20 => C D58 (f x y) | D21 => C D59 (f x y) | D22 => C D60 (f x y) | D23 => C D61 (f x y) | D24 => C D62 (f x y) | D25 => C D63 (f x y) | D26 => C D0 (g x y) | D27 => C D1 (g x y) | D28 => C D2 (g x y) | D29 => C D3 (g x y) | D30 => C D4 (g x y) | D31 => C D5 (g x y) | D32 => C D6 (g x y) | D33 => C D7 (g x y) | D34 => C D8 (g x y) | D35 => C D9 (g x y) | D36 => C D10 (g x y) | D37 => C D11 (g x y) | D38 => C D12 (g x y) | D39 => C D13 (g x y) | D40 => C D14 (g x y) | D41 => C D15 (g x y) | D42 => C D16 (g x y) | D43 => C D17 (g x y) | D44 => C D18 (g x y) | D45 => C D19 (g x y) | D46 => C D20 (g x y) | D47 => C D21 (g x y) | D48 => C D22 (g x y) | D49 => C D23 (g x y) | D50 => C D24 (g x y) | D51 => C D25 (g x y) | D52 => C D26 (g x y) | D53 => C D27 (g x y) | D54 => C D28 (g x y) | D55 => C D29 (g x y) | D56 => C D30 (g x y) | D57 => C D31 (g x y) | D58 => C D32 (g x y) | D59 => C D33 (g x y) | D60 => C D34 (g x y) | D61 => C D35 (g x y) | D62 => C D36 (g x y) | D63 => C D37 (g x y) end
    | D39 => match e with | D0 => C D39 (f x y) | D1 => C D40 (f x y) | D2 => C D41 (f x y) | D3 => C D42 (f x y) | D4 => C D43 (f x y) | D5 => C D44 (f x y) | D6 => C D45 (f x y) | D7 => C D46 (f x y) | D8 => C D47 (f x y) | D9 => C D48 (f x y) | D10 => C D49 (f x y) | D11 => C D50 (f x y) | D12 => C D51 (f x y) | D13 => C D52 (f x y) | D14 => C D53 (f x y) | D15 => C D54 (f x y) | D16 => C D55 (f x y) | D17 => C D56 (f x y) | D18 => C D57 (f x y) | D19 => C D58 (f x y) | D20 => C D59 (f x y) | D21 => C D60 (f x y) | D22 => C D61 (f x y) | D23 => C D62 (f x y) | D24 => C D63 (f x y) | D25 => C D0 (g x y) | D26 => C D1 (g x y) | D27 => C D2 (g x y) | D28 => C D3 (g x y) | D29 => C D4 (g x y) | D30 => C D5 (g x y) | D31 => C D6 (g x y) | D32 => C D7 (g x y) | D33 => C D8 (g x y) | D34 => C D9 (g x y) | D35 => C D10 (g x y) | D36 => C D11 (g x y) | D37 => C D12 (g x y) | D38 => C D13 (g x y) | D39 => C D14 (g x y) | D40 => C D15 (g x y) | D41 => C D16 (g x y) | D42 => C D17 (g x y) | D43 => C D18 (g x y) | D44 => C D19 (g x y) | D45 => C D20 (g x y) | D46 => C D21 (g x y) | D47 => C D22 (g x y) | D48 => C D23 (g x y) | D49 => C D24 (g x y) | D50 => C D25 (g x y) | D51 => C D26 (g x y) | D52 => C D27 (g x y) | D53 => C D28 (g x y) | D54 => C D29 (g x y) | D55 => C D30 (g x y) | D56 => C D31 (g x y) | D57 => C D32 (g x y) | D58 => C D33 (g x y) | D59 => C D34 (g x y) | D60 => C D35 (g x y) | D61 => C D36 (g x y) | D62 => C D37 (g x y) | D63 => C D38 (g x y) end
    | D40 => match e with | D0 => C D40 (f x y) | D1 => C D41 (f x y) | D2 => C D42 (f x y) | D3 => C D43 (f x y) | D4 => C D44 (f x y) | D5 => C D45 (f x y) | D6 => C D46 (f x y) | D7 => C D47 (f x y) | D8 => C D48 (f x y) | D9 => C D49 (f x y) | D10 => C D50 (f x y) | D11 => C D51 (f x y) | D12 => C D52 (f x y) | D13 => C D53 (f x y) | D14 => C D54 (f x y) | D15 => C D55 (f x y) | D16 => C D56 (f x y) | D17 => C D57 (f x y) | D18 => C D58 (f x y) | D19 => C D59 (f x y) | D20 => C D60 (f x y) | D21 => C D61 (f x y) | D22 => C D62 (f x y) | D23 => C D63 (f x y) | D24 => C D0 (g x y) | D25 => C D1 (g x y) | D26 => C D2 (g x y) | D27 => C D3 (g x y) | D28 => C D4 (g x y) | D29 => C D5 (g x y) | D30 => C D6 (g x y) | D31 => C D7 (g x y) | D32 => C D8 (g x y) | D33 => C D9 (g x y) | D34 => C D10 (g x y) | D35 => C D11 (g x y) | D36 => C D12 (g x y) | D37 => C D13 (g x y) | D38 => C D14 (g x y) | D39 => C D15 (g x y) | D40 => C D16 (g x y) | D41 => C D17 (g x y) | D42 => C D18 (g x y) | D43 => C D19 (g x y) | D44 => C D20 (g x y) | D45 => C D21 (g x y) | D46 => C D22 (g x y) | D47 => C D23 (g x y) | D48 => C D24 (g x y) | D49 => C D25 (g x y) | D50 => C D26 (g x y) | D51 => C D27 (g x y) | D52 => C D28 (g x y) | D53 => C D29 (g x y) | D54 => C D30 (g x y) | D55 => C D31 (g x y) | D56 => C D32 (g x y) | D57 => C D33 (g x y) | D58 => C D34 (g x y) | D59 => C D35 (g x y) | D60 => C D36 (g x y) | D61 => C D37 (g x y) | D62 => C D38 (g x y) | D63 => C D39 (g x y) end
    | D41 => match e with | D0 => C D41 (f x y) | D1 => C D42 (f x y) | D2 => C D43 (f x y) | D3 => C D44 (f x y) | D4 => C D45 (f x y) | D5 => C D46 (f x y) | D6 => C D47 (f x y) | D7 => C D48 (f x y) | D8 => C D49 (f x y) | D9 => C D50 (f x y) | D10 => C D51 (f x y) | D11 => C D52 (f x y) | D12 => C D53 (f x y) | D13 => C D54 (f x y) | D14 => C D55 (f x y) | D15 => C D56 (f x y) | D16 => C D57 (f x y) | D17 => C D58 (f x y) | D18 => C D59 (f x y) | D19 => C D60 (f x y) | D20 => C D61 (f x y) | D21 => C D62 (f x y) | D22 => C D63 (f x y) | D23 => C D0 (g x y) | D24 => C D1 (g x y) | D25 => C D2 (g x y) | D26 => C D3 (g x y) | D27 => C D4 (g x y) | D28 => C D5 (g x y) | D29 => C D6 (g x y) | D30 => C D7 (g x y) | D31 => C D8 (g x y) | D32 => C D9 (g x y) | D33 => C D10 (g x y) | D34 => C D11 (g x y) | D35 => C D12 (g x y) | D36 => C D13 (g x y) | D37 => C D14 (g x y) | D38 => C D15 (g x y) | D39 => C D16 (g x y) | D40 => C D17 (g x y) | D41 => C D18 (g x y) | D42 => C D19 (g x y) | D43 => C D20 (g x y) | D44 => C D21 (g x y) | D45 => C D22 (g x y) | D46 => C D23 (g x y) | D47 => C D24 (g x y) | D48 => C D25 (g x y) | D49 => C D26 (g x y) | D50 => C D27 (g x y) | D51 => C D28 (g x y) | D52 => C D29 (g x y) | D53 => C D30 (g x y) | D54 => C D31 (g x y) | D55 => C D32 (g x y) | D56 => C D33 (g x y) | D57 => C D34 (g x y) | D58 => C D35 (g x y) | D59 => C D36 (g x y) | D60 => C D37 (g x y) | D61 => C D38 (g x y) | D62 => C D39 (g x y) | D63 => C D40 (g x y) end
    | D42 => match e with | D0 => C D42 (f x y) | D1 => C D43 (f x y) | D2 => C D44 (f x y) | D3 => C D45 (f x y) | D4 => C D46 (f x y) | D5 => C D47 (f x y) | D6 => C D48 (f x y) | D7 => C D49 (f x y) | D8 => C D50 (f x y) | D9 => C D51 (f x y) | D10 => C D52 (f x y) | D11 => C D53 (f x y) | D12 => C D54 (f x y) | D13 => C D55 (f x y) | D14 => C D56 (f x y) | D15 => C D57 (f x y) | D16 => C D58 (f x y) | D17 => C D59 (f x y) | D18 => C D60 (f x y) | D19 => C D61 (f x y) | D20 => C D62 (f x y) | D21 => C D63 (f x y) | D22 => C D0 (g x y) | D23 => C D1 (g x y) | D24 => C D2 (g x y) | D25 => C D3 (g x y) | D26 => C D4 (g x y) | D27 => C D5 (g x y) | D28 => C D6 (g x y) | D29 => C D7 (g x y) | D30 => C D8 (g x y) | D31 => C D9 (g x y) | D32 => C D10 (g x y) | D33 => C D11 (g x y) | D34 => C D12 (g x y) | D35 => C D13 (g x y) | D36 => C D14 (g x y) | D37 => C D15 (g x y) | D38 => C D16 (g x y) | D39 => C D17 (g x y) | D40 => C D18 (g x y) | D41 => C D19 (g x y) | D42 => C D20 (g x y) | D43 => C D21 (g x y) | D44 => C D22 (g x y) | D45 => C D23 (g x y) | D46 => C D24 (g x y) | D47 => C D25 (g x y) | D48 => C D26 (g x y) | D49 => C D27 (g x y) | D50 => C D28 (g x y) | D51 => C D29 (g x y) | D52 => C D30 (g x y) | D53 => C D31 (g x y) | D54 => C D32 (g x y) | D55 => C D33 (g x y) | D56 => C D34 (g x y) | D57 => C D35 (g x y) | D58 => C D36 (g x y) | D59 => C D37 (g x y) | D60 => C D38 (g x y) | D61 => C D39 (g x y) | D62 => C D40 (g x y) | D63 => C D41 (g x y) end
    | D43 => match e with | D0 => C D43 (f x y) | D1 => C D44 (f x y) | D2 => C D45 (f x y) | D3 => C D46 (f x y) | D4 => C D47 (f x y) | D5 => C D48 (f x y) | D6 => C D49 (f x y) | D7 => C D50 (f x y) | D8 => C D51 (f x y) | D9 => C D52 (f x y) | D10 => C D53 (f x y) | D11 => C D54 (f x y) | D12 => C D55 (f x y) | D13 => C D56 (f x y) | D14 => C D57 (f x y) | D15 => C D58 (f x y) | D16 => C D59 (f x y) | D17 => C D60 (f x y) | D18 => C D61 (f x y) | D19 => C D62 (f x y) | D20 => C D63 (f x y) | D21 => C D0 (g x y) | D22 => C D1 (g x y) | D23 => C D2 (g x y) | D24 => C D3 (g x y) | D25 => C D4 (g x y) | D26 => C D5 (g x y) | D27 => C D6 (g x y) | D28 => C D7 (g x y) | D29 => C D8 (g x y) | D30 => C D9 (g x y) | D31 => C D10 (g x y) | D32 => C D11 (g x y) | D33 => C D12 (g x y) | D34 => C D13 (g x y) | D35 => C D14 (g x y) | D36 => C D15 (g x y) | D37 => C D16 (g x y) | D38 => C D17 (g x y) | D39 => C D18 (g x y) | D40 => C D19 (g x y) | D41 => C D20 (g x y) | D42 => C D21 (g x y) | D43 => C D22 (g x y) | D44 => C D23 (g x y) | D45 => C D24 (g x y) | D46 => C D25 (g x y) | D47 => C D26 (g x y) | D48 => C D27 (g x y) | D49 => C D28 (g x y) | D50 => C D29 (g x y) | D51 => C D30 (g x y) | D52 => C D31 (g x y) | D53 => C D32 (g x y) | D54 => C D33 (g x y) | D55 => C D34 (g x y) | D56 => C D35 (g x y) | D57 => C D36 (g x y) | D58 => C D37 (g x y) | D59 => C D38 (g x y) | D60 => C D39 (g x y) | D61 => C D40 (g x y) | D62 => C D41 (g x y) | D63 => C D42 (g x y) end
    | D44 => match e with | D0 => C D44 (f x y) | D1 => C D45 (f x y) | D2 => C D46 (f x y) | D3 => C D47 (f x y) | D4 => C D48 (f x y) | D5 => C D49 (f x y) | D6 => C D50 (f x y) | D7 => C D51 (f x y) | D8 => C D52 (f x y) | D9 => C D53 (f x y) | D10 => C D54 (f x y) | D11 => C D55 (f x y) | D12 => C D56 (f x y) | D13 => C D57 (f x y) | D14 => C D58 (f x y) | D15 => C D59 (f x y) | D16 => C D60 (f x y) | D17 => C D61 (f x y) | D18 => C D62 (f x y) | D19 => C D63 (f x y) | D20 => C D0 (g x y) | D21 => C D1 (g x y) | D22 => C D2 (g x y) | D23 => C D3 (g x y) | D24 => C D4 (g x y) | D25 => C D5 (g x y) | D26 => C D6 (g x y) | D27 => C D7 (g x y) | D28 => C D8 (g x y) | D29 => C D9 (g x y) | D30 => C D10 (g x y) | D31 => C D11 (g x y) | D32 => C D12 (g x y) | D33 => C D13 (g x y) | D34 => C D14 (g x y) | D35 => C D15 (g x y) | D36 => C D16 (g x y) | D37 => C D17 (g x y) | D38 => C D18 (g x y) | D39 => C D19 (g x y) | D40 => C D20 (g x y) | D41 => C D21 (g x y) | D42 => C D22 (g x y) | D43 => C D23 (g x y) | D44 => C D24 (g x y) | D45 => C D25 (g x y) | D46 => C D26 (g x y) | D47 => C D27 (g x y) | D48 => C D28 (g x y) | D49 => C D29 (g x y) | D50 => C D30 (g x y) | D51 => C D31 (g x y) | D52 => C D32 (g x y) | D53 => C D33 (g x y) | D54 => C D34 (g x y) | D55 => C D35 (g x y) | D56 => C D36 (g x y) | D57 => C D37 (g x y) | D58 => C D38 (g x y) | D59 => C D39 (g x y) | D60 => C D40 (g x y) | D61 => C D41 (g x y) | D62 => C D42 (g x y) | D63 => C D43 (g x y) end
    | D45 => match e with | D0 => C D45 (f x y) | D1 => C D46 (f x y) | D2 => C D47 (f x y) | D3 => C D48 (f x y) | D4 => C D49 (f x y) | D5 => C D50 (f x y) | D6 => C D51 (f x y) | D7 => C D52 (f x y) | D8 => C D53 (f x y) | D9 => C D54 (f x y) | D10 => C D55 (f x y) | D11 => C D56 (f x y) | D12 => C D57 (f x y) | D13 => C D58 (f x y) | D14 => C D59 (f x y) | D15 => C D60 (f x y) | D16 => C D61 (f x y) | D17 => C D62 (f x y) | D18 => C D63 (f x y) | D19 => C D0 (g x y) | D20 => C D1 (g x y) | D21 => C D2 (g x y) | D22 => C D3 (g x y) | D23 => C D4 (g x y) | D24 => C D5 (g x y) | D25 => C D6 (g x y) | D26 => C D7 (g x y) | D27 => C D8 (g x y) | D28 => C D9 (g x y) | D29 => C D10 (g x y) | D30 => C D11 (g x y) | D31 => C D12 (g x y) | D32 => C D13 (g x y) | D33 => C D14 (g x y) | D34 => C D15 (g x y) | D35 => C D16 (g x y) | D36 => C D17 (g x y) | D37 => C D18 (g x y) | D38 => C D19 (g x y) | D39 => C D20 (g x y) | D40 => C D21 (g x y) | D41 => C D22 (g x y) | D42 => C D23 (g x y) | D43 => C D24 (g x y) | D44 => C D25 (g x y) | D45 => C D26 (g x y) | D46 => C D27 (g x y) | D47 => C D28 (g x y) | D48 => C D29 (g x y) | D49 => C D30 (g x y) | D50 => C D31 (g x y) | D51 => C D32 (g x y) | D52 => C D33 (g x y) | D53 => C D34 (g x y) | D54 => C D35 (g x y) | D55 => C D36 (g x y) | D56 => C D37 (g x y) | D57 => C D38 (g x y) | D58 => C D39 (g x y) | D59 => C D40 (g x y) | D60 => C D41 (g x y) | D61 => C D42 (g x y) | D62 => C D43 (g x y) | D63 => C D44 (g x y) end
    | D46 => match e with | D0 => C D46 (f x y) | D1 => C D47 (f x y) | D2 => C D48 (f x y) | D3 => C D49 (f x y) | D4 => C D50 (f x y) | D5 => C D51 (f x y) | D6 => C D52 (f x y) | D7 => C D53 (f x y) | D8 => C D54 (f x y) | D9 => C D55 (f x y) | D10 => C D56 (f x y) | D11 => C D57 (f x y) | D12 => C D58 (f x y) | D13 => C D59 (f x y) | D14 => C D60 (f x y) | D15 => C D61 (f x y) | D16 => C D62 (f x y) | D17 => C D63 (f x y) | D18 => C D0 (g x y) | D19 => C D1 (g x y) | D20 => C D2 (g x y) | D21 => C D3 (g x y) | D22 => C D4 (g x y) | D23 => C D5 (g x y) | D24 => C D6 (g x y) | D25 => C D7 (g x y) | D26 => C D8 (g x y) | D27 => C D9 (g x y) | D28 => C D10 (g x y) | D29 => C D11 (g x y) | D30 => C D12 (g x y) | D31 => C D13 (g x y) | D32 => C D14 (g x y) | D33 => C D15 (g x y) | D34 => C D16 (g x y) | D35 => C D17 (g x y) | D36 => C D18 (g x y) | D37 => C D19 (g x y) | D38 => C D20 (g x y) | D39 => C D21 (g x y) | D40 => C D22 (g x y) | D41 => C D23 (g x y) | D42 => C D24 (g x y) | D43 => C D25 (g x y) | D44 => C D26 (g x y) | D45 => C D27 (g x y) | D46 => C D28 (g x y) | D47 => C D29 (g x y) | D48 => C D30 (g x y) | D49 => C D31 (g x y) | D50 => C D32 (g x y) | D51 => C D33 (g x y) | D52 => C D34 (g x y) | D53 => C D35 (g x y) | D54 => C D36 (g x y) | D55 => C D37 (g x y) | D56 => C D38 (g x y) | D57 => C D39 (g x y) | D58 => C D40 (g x y) | D59 => C D41 (g x y) | D60 => C D42 (g x y) | D61 => C D43 (g x y) | D62 => C D44 (g x y) | D63 => C D45 (g x y) end
    | D47 => match e with | D0 => C D47 (f x y) | D1 => C D48 (f x y) | D2 => C D49 (f x y) | D3 => C D50 (f x y) | D4 => C D51 (f x y) | D5 => C D52 (f x y) | D6 => C D53 (f x y) | D7 => C D54 (f x y) | D8 => C D55 (f x y) | D9 => C D56 (f x y) | D10 => C D57 (f x y) | D11 => C D58 (f x y) | D12 => C D59 (f x y) | D13 => C D60 (f x y) | D14 => C D61 (f x y) | D15 => C D62 (f x y) | D16 => C D63 (f x y) | D17 => C D0 (g x y) | D18 => C D1 (g x y) | D19 => C D2 (g x y) | D20 => C D3 (g x y) | D21 => C D4 (g x y) | D22 => C D5 (g x y) | D23 => C D6 (g x y) | D24 => C D7 (g x y) | D25 => C D8 (g x y) | D26 => C D9 (g x y) | D27 => C D10 (g x y) | D28 => C D11 (g x y) | D29 => C D12 (g x y) | D30 => C D13 (g x y) | D31 => C D14 (g x y) | D32 => C D15 (g x y) | D33 => C D16 (g x y) | D34 => C D17 (g x y) | D35 => C D18 (g x y) | D36 => C D19 (g x y) | D37 => C D20 (g x y) | D38 => C D21 (g x y) | D39 => C D22 (g x y) | D40 => C D23 (g x y) | D41 => C D24 (g x y) | D42 => C D25 (g x y) | D43 => C D26 (g x y) | D44 => C D27 (g x y) | D45 => C D28 (g x y) | D46 => C D29 (g x y) | D47 => C D30 (g x y) | D48 => C D31 (g x y) | D49 => C D32 (g x y) | D50 => C D33 (g x y) | D51 => C D34 (g x y) | D52 => C D35 (g x y) | D53 => C D36 (g x y) | D54 => C D37 (g x y) | D55 => C D38 (g x y) | D56 => C D39 (g x y) | D57 => C D40 (g x y) | D58 => C D41 (g x y) | D59 => C D42 (g x y) | D60 => C D43 (g x y) | D61 => C D44 (g x y) | D62 => C D45 (g x y) | D63 => C D46 (g x y) end
    | D48 => match e with | D0 => C D48 (f x y) | D1 => C D49 (f x y) | D2 => C D50 (f x y) | D3 => C D51 (f x y) | D4 => C D52 (f x y) | D5 => C D53 (f x y) | D6 => C D54 (f x y) | D7 => C D55 (f x y) | D8 => C D56 (f x y) | D9 => C D57 (f x y) | D10 => C D58 (f x y) | D11 => C D59 (f x y) | D12 => C D60 (f x y) | D13 => C D61 (f x y) | D14 => C D62 (f x y) | D15 => C D63 (f x y) | D16 => C D0 (g x y) | D17 => C D1 (g x y) | D18 => C D2 (g x y) | D19 => C D3 (g x y) | D20 => C D4 (g x y) | D21 => C D5 (g x y) | D22 => C D6 (g x y) | D23 => C D7 (g x y) | D24 => C D8 (g x y) | D25 => C D9 (g x y) | D26 => C D10 (g x y) | D27 => C D11 (g x y) | D28 => C D12 (g x y) | D29 => C D13 (g x y) | D30 => C D14 (g x y) | D31 => C D15 (g x y) | D32 => C D16 (g x y) | D33 => C D17 (g x y) | D34 => C D18 (g x y) | D35 => C D19 (g x y) | D36 => C D20 (g x y) | D37 => C D21 (g x y) | D38 => C D22 (g x y) | D39 => C D23 (g x y) | D40 => C D24 (g x y) | D41 => C D25 (g x y) | D42 => C D26 (g x y) | D43 => C D27 (g x y) | D44 => C D28 (g x y) | D45 => C D29 (g x y) | D46 => C D30 (g x y) | D47 => C D31 (g x y) | D48 => C D32 (g x y) | D49 => C D33 (g x y) | D50 => C D34 (g x y) | D51 => C D35 (g x y) | D52 => C D36 (g x y) | D53 => C D37 (g x y) | D54 => C D38 (g x y) | D55 => C D39 (g x y) | D56 => C D40 (g x y) | D57 => C D41 (g x y) | D58 => C D42 (g x y) | D59 => C D43 (g x y) | D60 => C D44 (g x y) | D61 => C D45 (g x y) | D62 => C D46 (g x y) | D63 => C D47 (g x y) end
    | D49 => match e with | D0 => C D49 (f x y) | D1 => C D50 (f x y) | D2 => C D51 (f x y) | D3 => C D52 (f x y) | D4 => C D53 (f x y) | D5 => C D54 (f x y) | D6 => C D55 (f x y) | D7 => C D56 (f x y) | D8 => C D57 (f x y) | D9 => C D58 (f x y) | D10 => C D59 (f x y) | D11 => C D60 (f x y) | D12 => C D61 (f x y) | D13 => C D62 (f x y) | D14 => C D63 (f x y) | D15 => C D0 (g x y) | D16 => C D1 (g x y) | D17 => C D2 (g x y) | D18 => C D3 (g x y) | D19 => C D4 (g x y) | D20 => C D5 (g x y) | D21 => C D6 (g x y) | D22 => C D7 (g x y) | D23 => C D8 (g x y) | D24 => C D9 (g x y) | D25 => C D10 (g x y) | D26 => C D11 (g x y) | D27 => C D12 (g x y) | D28 => C D13 (g x y) | D29 => C D14 (g x y) | D30 => C D15 (g x y) | D31 => C D16 (g x y) | D32 => C D17 (g x y) | D33 => C D18 (g x y) | D34 => C D19 (g x y) | D35 => C D20 (g x y) | D36 => C D21 (g x y) | D37 => C D22 (g x y) | D38 => C D23 (g x y) | D39 => C D24 (g x y) | D40 => C D25 (g x y) | D41 => C D26 (g x y) | D42 => C D27 (g x y) | D43 => C D28 (g x y) | D44 => C D29 (g x y) | D45 => C D30 (g x y) | D46 => C D31 (g x y) | D47 => C D32 (g x y) | D48 => C D33 (g x y) | D49 => C D34 (g x y) | D50 => C D35 (g x y) | D51 => C D36 (g x y) | D52 => C D37 (g x y) | D53 => C D38 (g x y) | D54 => C D39 (g x y) | D55 => C D40 (g x y) | D56 => C D41 (g x y) | D57 => C D42 (g x y) | D58 => C D43 (g x y) | D59 => C D44 (g x y) | D60 => C D45 (g x y) | D61 => C D46 (g x y) | D62 => C D47 (g x y) | D63 => C D48 (g x y) end
    | D50 => match e with | D0 => C D50 (f x y) | D1 => C D51 (f x y) | D2 => C D52 (f x y) | D3 => C D53 (f x y) | D4 => C D54 (f x y) | D5 => C D55 (f x y) | D6 => C D56 (f x y) | D7 => C D57 (f x y) | D8 => C D58 (f x y) | D9 => C D59 (f x y) | D10 => C D60 (f x y) | D11 => C D61 (f x y) | D12 => C D62 (f x y) | D13 => C D63 (f x y) | D14 => C D0 (g x y) | D15 => C D1 (g x y) | D16 => C D2 (g x y) | D17 => C D3 (g x y) | D18 => C D4 (g x y) | D19 => C D5 (g x y) | D20 => C D6 (g x y) | D21 => C D7 (g x y) | D22 => C D8 (g x y) | D23 => C D9 (g x y) | D24 => C D10 (g x y) | D25 => C D11 (g x y) | D26 => C D12 (g x y) | D27 => C D13 (g x y) | D28 => C D14 (g x y) | D29 => C D15 (g x y) | D30 => C D16 (g x y) | D31 => C D17 (g x y) | D32 => C D18 (g x y) | D33 => C D19 (g x y) | D34 => C D20 (g x y) | D35 => C D21 (g x y) | D36 => C D22 (g x y) | D37 => C D23 (g x y) | D38 => C D24 (g x y) | D39 => C D25 (g x y) | D40 => C D26 (g x y) | D41 => C D27 (g x y) | D42 => C D28 (g x y) | D43 => C D29 (g x y) | D44 => C D30 (g x y) | D45 => C D31 (g x y) | D46 => C D32 (g x y) | D47 => C D33 (g x y) | D48 => C D34 (g x y) | D49 => C D35 (g x y) | D50 => C D36 (g x y) | D51 => C D37 (g x y) | D52 => C D38 (g x y) | D53 => C D39 (g x y) | D54 => C D40 (g x y) | D55 => C D41 (g x y) | D56 => C D42 (g x y) | D57 => C D43 (g x y) | D58 => C D44 (g x y) | D59 => C D45 (g x y) | D60 => C D46 (g x y) | D61 => C D47 (g x y) | D62 => C D48 (g x y) | D63 => C D49 (g x y) end
    | D51 => match e with | D0 => C D51 (f x y) | D1 => C D52 (f x y) | D2 => C D53 (f x y) | D3 => C D54 (f x y) | D4 => C D55 (f x y) | D5 => C D56 (f x y) | D6 => C D57 (f x y) | D7 => C D58 (f x y) | D8 => C D59 (f x y) | D9 => C D60 (f x y) | D10 => C D61 (f x y) | D11 => C D62 (f x y) | D12 => C D63 (f x y) | D13 => C D0 (g x y) | D14 => C D1 (g x y) | D15 => C D2 (g x y) | D16 => C D3 (g x y) | D17 => C D4 (g x y) | D18 => C D5 (g x y) | D19 => C D6 (g x y) | D20 => C D7 (g x y) | D21 => C D8 (g x y) | D22 => C D9 (g x y) | D23 => C D10 (g x y) | D24 => C D11 (g x y) | D25 => C D12 (g x y) | D26 => C D13 (g x y) | D27 => C D14 (g x y) | D28 => C D15 (g x y) | D29 => C D16 (g x y) | D30 => C D17 (g x y) | D31 => C D18 (g x y) | D32 => C D19 (g x y) | D33 => C D20 (g x y) | D34 => C D21 (g x y) | D35 => C D22 (g x y) | D36 => C D23 (g x y) | D37 => C D24 (g x y) | D38 => C D25 (g x y) | D39 => C D26 (g x y) | D40 => C D27 (g x y) | D41 => C D28 (g x y) | D42 => C D29 (g x y) | D43 => C D30 (g x y) | D44 => C D31 (g x y) | D45 => C D32 (g x y) | D46 => C D33 (g x y) | D47 => C D34 (g x y) | D48 => C D35 (g x y) | D49 => C D36 (g x y) | D50 => C D37 (g x y) | D51 => C D38 (g x y) | D52 => C D39 (g x y) | D53 => C D40 (g x y) | D54 => C D41 (g x y) | D55 => C D42 (g x y) | D56 => C D43 (g x y) | D57 => C D44 (g x y) | D58 => C D45 (g x y) | D59 => C D46 (g x y) | D60 => C D47 (g x y) | D61 => C D48 (g x y) | D62 => C D49 (g x y) | D63 => C D50 (g x y) end
    | D52 => match e with | D0 => C D52 (f x y) | D1 => C D53 (f x y) | D2 => C D54 (f x y) | D3 => C D55 (f x y) | D4 => C D56 (f x y) | D5 => C D57 (f x y) | D6 => C D58 (f x y) | D7 => C D59 (f x y) | D8 => C D60 (f x y) | D9 => C D61 (f x y) | D10 => C D62 (f x y) | D11 => C D63 (f x y) | D12 => C D0 (g x y) | D13 => C D1 (g x y) | D14 => C D2 (g x y) | D15 => C D3 (g x y) | D16 => C D4 (g x y) | D17 => C D5 (g x y) | D18 => C D6 (g x y) | D19 => C D7 (g x y) | D20 => C D8 (g x y) | D21 => C D9 (g x y) | D22 => C D10 (g x y) | D23 => C D11 (g x y) | D24 => C D12 (g x y) | D25 => C D13 (g x y) | D26 => C D14 (g x y) | D27 => C D15 (g x y) | D28 => C D16 (g x y) | D29 => C D17 (g x y) | D30 => C D18 (g x y) | D31 => C D19 (g x y) | D32 => C D20 (g x y) | D33 => C D21 (g x y) | D34 => C D22 (g x y) | D35 => C D23 (g x y) | D36 => C D24 (g x y) | D37 => C D25 (g x y) | D38 => C D26 (g x y) | D39 => C D27 (g x y) | D40 => C D28 (g x y) | D41 => C D29 (g x y) | D42 => C D30 (g x y) | D43 => C D31 (g x y) | D44 => C D32 (g x y) | D45 => C D33 (g x y) | D46 => C D34 (g x y) | D47 => C D35 (g x y) | D48 => C D36 (g x y) | D49 => C D37 (g x y) | D50 => C D38 (g x y) | D51 => C D39 (g x y) | D52 => C D40 (g x y) | D53 => C D41 (g x y) | D54 => C D42 (g x y) | D55 => C D43 (g x y) | D56 => C D44 (g x y) | D57 => C D45 (g x y) | D58 => C D46 (g x y) | D59 => C D47 (g x y) | D60 => C D48 (g x y) | D61 => C D49 (g x y) | D62 => C D50 (g x y) | D63 => C D51 (g x y) end
    | D53 => match e with | D0 => C D53 (f x y) | D1 => C D54 (f x y) | D2 => C D55 (f x y) | D3 => C D56 (f x y) | D4 => C D57 (f x y) | D5 => C D58 (f x y) | D6 => C D59 (f x y) | D7 => C D60 (f x y) | D8 => C D61 (f x y) | D9 => C D62 (f x y) | D10 => C D63 (f x y) | D11 => C D0 (g x y) | D12 => C D1 (g x y) | D13 => C D2 (g x y) | D14 => C D3 (g x y) | D15 => C D4 (g x y) | D16 => C D5 (g x y) | D17 => C D6 (g x y) | D18 => C D7 (g x y) | D19 => C D8 (g x y) | D20 => C D9 (g x y) | D21 => C D10 (g x y) | D22 => C D11 (g x y) | D23 => C D12 (g x y) | D24 => C D13 (g x y) | D25 => C D14 (g x y) | D26 => C D15 (g x y) | D27 => C D16 (g x y) | D28 => C D17 (g x y) | D29 => C D18 (g x y) | D30 => C D19 (g x y) | D31 => C D20 (g x y) | D32 => C D21 (g x y) | D33 => C D22 (g x y) | D34 => C D23 (g x y) | D35 => C D24 (g x y) | D36 => C D25 (g x y) | D37 => C D26 (g x y) | D38 => C D27 (g x y) | D39 => C D28 (g x y) | D40 => C D29 (g x y) | D41 => C D30 (g x y) | D42 => C D31 (g x y) | D43 => C D32 (g x y) | D44 => C D33 (g x y) | D45 => C D34 (g x y) | D46 => C D35 (g x y) | D47 => C D36 (g x y) | D48 => C D37 (g x y) | D49 => C D38 (g x y) | D50 => C D39 (g x y) | D51 => C D40 (g x y) | D52 => C D41 (g x y) | D53 => C D42 (g x y) | D54 => C D43 (g x y) | D55 => C D44 (g x y) | D56 => C D45 (g x y) | D57 => C D46 (g x y) | D58 => C D47 (g x y) | D59 => C D48 (g x y) | D60 => C D49 (g x y) | D61 => C D50 (g x y) | D62 => C D51 (g x y) | D63 => C D52 (g x y) end
    | D54 => match e with | D0 => C D54 (f x y) | D1 => C D55 (f x y) | D2 => C D56 (f x y) | D3 => C D57 (f x y) | D4 => C D58 (f x y) | D5 => C D59 (f x y) | D6 => C D60 (f x y) | D7 => C D61 (f x y) | D8 => C D62 (f x y) | D9 => C D63 (f x y) | D10 => C D0 (g x y) | D11 => C D1 (g x y) | D12 => C D2 (g x y) | D13 => C D3 (g x y) | D14 => C D4 (g x y) | D15 => C D5 (g x y) | D16 => C D6 (g x y) | D17 => C D7 (g x y) | D18 => C D8 (g x y) | D19 => C D9 (g x y) | D20 => C D10 (g x y) | D21 => C D11 (g x y) | D22 => C D12 (g x y) | D23 => C D13 (g x y) | D24 => C D14 (g x y) | D25 => C D15 (g x y) | D26 => C D16 (g x y) | D27 => C D17 (g x y) | D28 => C D18 (g x y) | D29 => C D19 (g x y) | D30 => C D20 (g x y) | D31 => C D21 (g x y) | D32 => C D22 (g x y) | D33 => C D23 (g x y) | D34 => C D24 (g x y) | D35 => C D25 (g x y) | D36 => C D26 (g x y) | D37 => C D27 (g x y) | D38 => C D28 (g x y) | D39 => C D29 (g x y) | D40 => C D30 (g x y) | D41 => C D31 (g x y) | D42 => C D32 (g x y) | D43 => C D33 (g x y) | D44 => C D34 (g x y) | D45 => C D35 (g x y) | D46 => C D36 (g x y) | D47 => C D37 (g x y) | D48 => C D38 (g x y) | D49 => C D39 (g x y) | D50 => C D40 (g x y) | D51 => C D41 (g x y) | D52 => C D42 (g x y) | D53 => C D43 (g x y) | D54 => C D44 (g x y) | D55 => C D45 (g x y) | D56 => C D46 (g x y) | D57 => C D47 (g x y) | D58 => C D48 (g x y) | D59 => C D49 (g x y) | D60 => C D50 (g x y) | D61 => C D51 (g x y) | D62 => C D52 (g x y) | D63 => C D53 (g x y) end
    | D55 => match e with | D0 => C D55 (f x y) | D1 => C D56 (f x y) | D2 => C D57 (f x y) | D3 => C D58 (f x y) | D4 => C D59 (f x y) | D5 => C D60 (f x y) | D6 => C D61 (f x y) | D7 => C D62 (f x y) | D8 => C D63 (f x y) | D9 => C D0 (g x y) | D10 => C D1 (g x y) | D11 => C D2 (g x y) | D12 => C D3 (g x y) | D13 => C D4 (g x y) | D14 => C D5 (g x y) | D15 => C D6 (g x y) | D16 => C D7 (g x y) | D17 => C D8 (g x y) | D18 => C D9 (g x y) | D19 => C D10 (g x y) | D20 => C D11 (g x y) | D21 => C D12 (g x y) | D22 => C D13 (g x y) | D23 => C D14 (g x y) | D24 => C D15 (g x y) | D25 => C D16 (g x y) | D26 => C D17 (g x y) | D27 => C D18 (g x y) | D28 => C D19 (g x y) | D29 => C D20 (g x y) | D30 => C D21 (g x y) | D31 => C D22 (g x y) | D32 => C D23 (g x y) | D33 => C D24 (g x y) | D34 => C D25 (g x y) | D35 => C D26 (g x y) | D36 => C D27 (g x y) | D37 => C D28 (g x y) | D38 => C D29 (g x y) | D39 => C D30 (g x y) | D40 => C D31 (g x y) | D41 => C D32 (g x y) | D42 => C D33 (g x y) | D43 => C D34 (g x y) | D44 => C D35 (g x y) | D45 => C D36 (g x y) | D46 => C D37 (g x y) | D47 => C D38 (g x y) | D48 => C D39 (g x y) | D49 => C D40 (g x y) | D50 => C D41 (g x y) | D51 => C D42 (g x y) | D52 => C D43 (g x y) | D53 => C D44 (g x y) | D54 => C D45 (g x y) | D55 => C D46 (g x y) | D56 => C D47 (g x y) | D57 => C D48 (g x y) | D58 => C D49 (g x y) | D59 => C D50 (g x y) | D60 => C D51 (g x y) | D61 => C D52 (g x y) | D62 => C D53 (g x y) | D63 => C D54 (g x y) end
    | D56 => match e with | D0 => C D56 (f x y) | D1 => C D57 (f x y) | D2 => C D58 (f x y) | D3 => C D59 (f x y) | D4 => C D60 (f x y) | D5 => C D61 (f x y) | D6 => C D62 (f x y) | D7 => C D63 (f x y) | D8 => C D0 (g x y) | D9 => C D1 (g x y) | D10 => C D2 (g x y) | D11 => C D3 (g x y) | D12 => C D4 (g x y) | D13 => C D5 (g x y) | D14 => C D6 (g x y) | D15 => C D7 (g x y) | D16 => C D8 (g x y) | D17 => C D9 (g x y) | D18 => C D10 (g x y) | D19 => C D11 (g x y) | D20 => C D12 (g x y) | D21 => C D13 (g x y) | D22 => C D14 (g x y) | D23 => C D15 (g x y) | D24 => C D16 (g x y) | D25 => C D17 (g x y) | D26 => C D18 (g x y) | D27 => C D19 (g x y) | D28 => C D20 (g x y) | D29 => C D21 (g x y) | D30 => C D22 (g x y) | D31 => C D23 (g x y) | D32 => C D24 (g x y) | D33 => C D25 (g x y) | D34 => C D26 (g x y) | D35 => C D27 (g x y) | D36 => C D28 (g x y) | D37 => C D29 (g x y) | D38 => C D30 (g x y) | D39 => C D31 (g x y) | D40 => C D32 (g x y) | D41 => C D33 (g x y) | D42 => C D34 (g x y) | D43 => C D35 (g x y) | D44 => C D36 (g x y) | D45 => C D37 (g x y) | D46 => C D38 (g x y) | D47 => C D39 (g x y) | D48 => C D40 (g x y) | D49 => C D41 (g x y) | D50 => C D42 (g x y) | D51 => C D43 (g x y) | D52 => C D44 (g x y) | D53 => C D45 (g x y) | D54 => C D46 (g x y) | D55 => C D47 (g x y) | D56 => C D48 (g x y) | D57 => C D49 (g x y) | D58 => C D50 (g x y) | D59 => C D51 (g x y) | D60 => C D52 (g x y) | D61 => C D53 (g x y) | D62 => C D54 (g x y) | D63 => C D55 (g x y) end
    | D57 => match e with | D0 => C D57 (f x y) | D1 => C D58 (f x y) | D2 => C D59 (f x y) | D3 => C D60 (f x y) | D4 => C D61 (f x y) | D5 => C D62 (f x y) | D6 => C D63 (f x y) | D7 => C D0 (g x y) | D8 => C D1 (g x y) | D9 => C D2 (g x y) | D10 => C D3 (g x y) | D11 => C D4 (g x y) | D12 => C D5 (g x y) | D13 => C D6 (g x y) | D14 => C D7 (g x y) | D15 => C D8 (g x y) | D16 => C D9 (g x y) | D17 => C D10 (g x y) | D18 => C D11 (g x y) | D19 => C D12 (g x y) | D20 => C D13 (g x y) | D21 => C D14 (g x y) | D22 => C D15 (g x y) | D23 => C D16 (g x y) | D24 => C D17 (g x y) | D25 => C D18 (g x y) | D26 => C D19 (g x y) | D27 => C D20 (g x y) | D28 => C D21 (g x y) | D29 => C D22 (g x y) | D30 => C D23 (g x y) | D31 => C D24 (g x y) | D32 => C D25 (g x y) | D33 => C D26 (g x y) | D34 => C D27 (g x y) | D35 => C D28 (g x y) | D36 => C D29 (g x y) | D37 => C D30 (g x y) | D38 => C D31 (g x y) | D39 => C D32 (g x y) | D40 => C D33 (g x y) | D41 => C D34 (g x y) | D42 => C D35 (g x y) | D43 => C D36 (g x y) | D44 => C D37 (g x y) | D45 => C D38 (g x y) | D46 => C D39 (g x y) | D47 => C D40 (g x y) | D48 => C D41 (g x y) | D49 => C D42 (g x y) | D50 => C D43 (g x y) | D51 => C D44 (g x y) | D52 => C D45 (g x y) | D53 => C D46 (g x y) | D54 => C D47 (g x y) | D55 => C D48 (g x y) | D56 => C D49 (g x y) | D57 => C D50 (g x y) | D58 => C D51 (g x y) | D59 => C D52 (g x y) | D60 => C D53 (g x y) | D61 => C D54 (g x y) | D62 => C D55 (g x y) | D63 => C D56 (g x y) end
    | D58 => match e with | D0 => C D58 (f x y) | D1 => C D59 (f x y) | D2 => C D60 (f x y) | D3 => C D61 (f x y) | D4 => C D62 (f x y) | D5 => C D63 (f x y) | D6 => C D0 (g x y) | D7 => C D1 (g x y) | D8 => C D2 (g x y) | D9 => C D3 (g x y) | D10 => C D4 (g x y) | D11 => C D5 (g x y) | D12 => C D6 (g x y) | D13 => C D7 (g x y) | D14 => C D8 (g x y) | D15 => C D9 (g x y) | D16 => C D10 (g x y) | D17 => C D11 (g x y) | D18 => C D12 (g x y) | D19 => C D13 (g x y) | D20 => C D14 (g x y) | D21 => C D15 (g x y) | D22 => C D16 (g x y) | D23 => C D17 (g x y) | D24 => C D18 (g x y) | D25 => C D19 (g x y) | D26 => C D20 (g x y) | D27 => C D21 (g x y) | D28 => C D22 (g x y) | D29 => C D23 (g x y) | D30 => C D24 (g x y) | D31 => C D25 (g x y) | D32 => C D26 (g x y) | D33 => C D27 (g x y) | D34 => C D28 (g x y) | D35 => C D29 (g x y) | D36 => C D30 (g x y) | D37 => C D31 (g x y) | D38 => C D32 (g x y) | D39 => C D33 (g x y) | D40 => C D34 (g x y) | D41 => C D35 (g x y) | D42 => C D36 (g x y) | D43 => C D37 (g x y) | D44 => C D38 (g x y) | D45 => C D39 (g x y) | D46 => C D40 (g x y) | D47 => C D41 (g x y) | D48 => C D42 (g x y) | D49 => C D43 (g x y) | D50 => C D44 (g x y) | D51 => C D45 (g x y) | D52 => C D46 (g x y) | D53 => C D47 (g x y) | D54 => C D48 (g x y) | D55 => C D49 (g x y) | D56 => C D50 (g x y) | D57 => C D51 (g x y) | D58 => C D52 (g x y) | D59 => C D53 (g x y) | D60 => C D54 (g x y) | D61 => C D55 (g x y) | D62 => C D56 (g x y) | D63 => C D57 (g x y) end
    | D59 => match e with | D0 => C D59 (f x y) | D1 => C D60 (f x y) | D2 => C D61 (f x y) | D3 => C D62 (f x y) | D4 => C D63 (f x y) | D5 => C D0 (g x y) | D6 => C D1 (g x y) | D7 => C D2 (g x y) | D8 => C D3 (g x y) | D9 => C D4 (g x y) | D10 => C D5 (g x y) | D11 => C D6 (g x y) | D12 => C D7 (g x y) | D13 => C D8 (g x y) | D14 => C D9 (g x y) | D15 => C D10 (g x y) | D16 => C D11 (g x y) | D17 => C D12 (g x y) | D18 => C D13 (g x y) | D19 => C D14 (g x y) | D20 => C D15 (g x y) | D21 => C D16 (g x y) | D22 => C D17 (g x y) | D23 => C D18 (g x y) | D24 => C D19 (g x y) | D25 => C D20 (g x y) | D26 => C D21 (g x y) | D27 => C D22 (g x y) | D28 => C D23 (g x y) | D29 => C D24 (g x y) | D30 => C D25 (g x y) | D31 => C D26 (g x y) | D32 => C D27 (g x y) | D33 => C D28 (g x y) | D34 => C D29 (g x y) | D35 => C D30 (g x y) | D36 => C D31 (g x y) | D37 => C D32 (g x y) | D38 => C D33 (g x y) | D39 => C D34 (g x y) | D40 => C D35 (g x y) | D41 => C D36 (g x y) | D42 => C D37 (g x y) | D43 => C D38 (g x y) | D44 => C D39 (g x y) | D45 => C D40 (g x y) | D46 => C D41 (g x y) | D47 => C D42 (g x y) | D48 => C D43 (g x y) | D49 => C D44 (g x y) | D50 => C D45 (g x y) | D51 => C D46 (g x y) | D52 => C D47 (g x y) | D53 => C D48 (g x y) | D54 => C D49 (g x y) | D55 => C D50 (g x y) | D56 => C D51 (g x y) | D57 => C D52 (g x y) | D58 => C D53 (g x y) | D59 => C D54 (g x y) | D60 => C D55 (g x y) | D61 => C D56 (g x y) | D62 => C D57 (g x y) | D63 => C D58 (g x y) end
    | D60 => match e with | D0 => C D60 (f x y) | D1 => C D61 (f x y) | D2 => C D62 (f x y) | D3 => C D63 (f x y) | D4 => C D0 (g x y) | D5 => C D1 (g x y) | D6 => C D2 (g x y) | D7 => C D3 (g x y) | D8 => C D4 (g x y) | D9 => C D5 (g x y) | D10 => C D6 (g x y) | D11 => C D7 (g x y) | D12 => C D8 (g x y) | D13 => C D9 (g x y) | D14 => C D10 (g x y) | D15 => C D11 (g x y) | D16 => C D12 (g x y) | D17 => C D13 (g x y) | D18 => C D14 (g x y) | D19 => C D15 (g x y) | D20 => C D16 (g x y) | D21 => C D17 (g x y) | D22 => C D18 (g x y) | D23 => C D19 (g x y) | D24 => C D20 (g x y) | D25 => C D21 (g x y) | D26 => C D22 (g x y) | D27 => C D23 (g x y) | D28 => C D24 (g x y) | D29 => C D25 (g x y) | D30 => C D26 (g x y) | D31 => C D27 (g x y) | D32 => C D28 (g x y) | D33 => C D29 (g x y) | D34 => C D30 (g x y) | D35 => C D31 (g x y) | D36 => C D32 (g x y) | D37 => C D33 (g x y) | D38 => C D34 (g x y) | D39 => C D35 (g x y) | D40 => C D36 (g x y) | D41 => C D37 (g x y) | D42 => C D38 (g x y) | D43 => C D39 (g x y) | D44 => C D40 (g x y) | D45 => C D41 (g x y) | D46 => C D42 (g x y) | D47 => C D43 (g x y) | D48 => C D44 (g x y) | D49 => C D45 (g x y) | D50 => C D46 (g x y) | D51 => C D47 (g x y) | D52 => C D48 (g x y) | D53 => C D49 (g x y) | D54 => C D50 (g x y) | D55 => C D51 (g x y) | D56 => C D52 (g x y) | D57 => C D53 (g x y) | D58 => C D54 (g x y) | D59 => C D55 (g x y) | D60 => C D56 (g x y) | D61 => C D57 (g x y) | D62 => C D58 (g x y) | D63 => C D59 (g x y) end
    | D61 => match e with | D0 => C D61 (f x y) | D1 => C D62 (f x y) | D2 => C D63 (f x y) | D3 => C D0 (g x y) | D4 => C D1 (g x y) | D5 => C D2 (g x y) | D6 => C D3 (g x y) | D7 => C D4 (g x y) | D8 => C D5 (g x y) | D9 => C D6 (g x y) | D10 => C D7 (g x y) | D11 => C D8 (g x y) | D12 => C D9 (g x y) | D13 => C D10 (g x y) | D14 => C D11 (g x y) | D15 => C D12 (g x y) | D16 => C D13 (g x y) | D17 => C D14 (g x y) | D18 => C D15 (g x y) | D19 => C D16 (g x y) | D20 => C D17 (g x y) | D21 => C D18 (g x y) | D22 => C D19 (g x y) | D23 => C D20 (g x y) | D24 => C D21 (g x y) | D25 => C D22 (g x y) | D26 => C D23 (g x y) | D27 => C D24 (g x y) | D28 => C D25 (g x y) | D29 => C D26 (g x y) | D30 => C D27 (g x y) | D31 => C D28 (g x y) | D32 => C D29 (g x y) | D33 => C D30 (g x y) | D34 => C D31 (g x y) | D35 => C D32 (g x y) | D36 => C D33 (g x y) | D37 => C D34 (g x y) | D38 => C D35 (g x y) | D39 => C D36 (g x y) | D40 => C D37 (g x y) | D41 => C D38 (g x y) | D42 => C D39 (g x y) | D43 => C D40 (g x y) | D44 => C D41 (g x y) | D45 => C D42 (g x y) | D46 => C D43 (g x y) | D47 => C D44 (g x y) | D48 => C D45 (g x y) | D49 => C D46 (g x y) | D50 => C D47 (g x y) | D51 => C D48 (g x y) | D52 => C D49 (g x y) | D53 => C D50 (g x y) | D54 => C D51 (g x y) | D55 => C D52 (g x y) | D56 => C D53 (g x y) | D57 => C D54 (g x y) | D58 => C D55 (g x y) | D59 => C D56 (g x y) | D60 => C D57 (g x y) | D61 => C D58 (g x y) | D62 => C D59 (g x y) | D63 => C D60 (g x y) end
    | D62 => match e with | D0 => C D62 (f x y) | D1 => C D63 (f x y) | D2 => C D0 (g x y) | D3 => C D1 (g x y) | D4 => C D2 (g x y) | D5 => C D3 (g x y) | D6 => C D4 (g x y) | D7 => C D5 (g x y) | D8 => C D6 (g x y) | D9 => C D7 (g x y) | D10 => C D8 (g x y) | D11 => C D9 (g x y) | D12 => C D10 (g x y) | D13 => C D11 (g x y) | D14 => C D12 (g x y) | D15 => C D13 (g x y) | D16 => C D14 (g x y) | D17 => C D15 (g x y) | D18 => C D16 (g x y) | D19 => C D17 (g x y) | D20 => C D18 (g x y) | D21 => C D19 (g x y) | D22 => C D20 (g x y) | D23 => C D21 (g x y) | D24 => C D22 (g x y) | D25 => C D23 (g x y) | D26 => C D24 (g x y) | D27 => C D25 (g x y) | D28 => C D26 (g x y) | D29 => C D27 (g x y) | D30 => C D28 (g x y) | D31 => C D29 (g x y) | D32 => C D30 (g x y) | D33 => C D31 (g x y) | D34 => C D32 (g x y) | D35 => C D33 (g x y) | D36 => C D34 (g x y) | D37 => C D35 (g x y) | D38 => C D36 (g x y) | D39 => C D37 (g x y) | D40 => C D38 (g x y) | D41 => C D39 (g x y) | D42 => C D40 (g x y) | D43 => C D41 (g x y) | D44 => C D42 (g x y) | D45 => C D43 (g x y) | D46 => C D44 (g x y) | D47 => C D45 (g x y) | D48 => C D46 (g x y) | D49 => C D47 (g x y) | D50 => C D48 (g x y) | D51 => C D49 (g x y) | D52 => C D50 (g x y) | D53 => C D51 (g x y) | D54 => C D52 (g x y) | D55 => C D53 (g x y) | D56 => C D54 (g x y) | D57 => C D55 (g x y) | D58 => C D56 (g x y) | D59 => C D57 (g x y) | D60 => C D58 (g x y) | D61 => C D59 (g x y) | D62 => C D60 (g x y) | D63 => C D61 (g x y) end
    | D63 => match e with | D0 => C D63 (f x y) | D1 => C D0 (g x y) | D2 => C D1 (g x y) | D3 => C D2 (g x y) | D4 => C D3 (g x y) | D5 => C D4 (g x y) | D6 => C D5 (g x y) | D7 => C D6 (g x y) | D8 => C D7 (g x y) | D9 => C D8 (g x y) | D10 => C D9 (g x y) | D11 => C D10 (g x y) | D12 => C D11 (g x y) | D13 => C D12 (g x y) | D14 => C D13 (g x y) | D15 => C D14 (g x y) | D16 => C D15 (g x y) | D17 => C D16 (g x y) | D18 => C D17 (g x y) | D19 => C D18 (g x y) | D20 => C D19 (g x y) | D21 => C D20 (g x y) | D22 => C D21 (g x y) | D23 => C D22 (g x y) | D24 => C D23 (g x y) | D25 => C D24 (g x y) | D26 => C D25 (g x y) | D27 => C D26 (g x y) | D28 => C D27 (g x y) | D29 => C D28 (g x y) | D30 => C D29 (g x y) | D31 => C D30 (g x y) | D32 => C D31 (g x y) | D33 => C D32 (g x y) | D34 => C D33 (g x y) | D35 => C D34 (g x y) | D36 => C D35 (g x y) | D37 => C D36 (g x y) | D38 => C D37 (g x y) | D39 => C D38 (g x y) | D40 => C D39 (g x y) | D41 => C D40 (g x y) | D42 => C D41 (g x y) | D43 => C D42 (g x y) | D44 => C D43 (g x y) | D45 => C D44 (g x y) | D46 => C D45 (g x y) | D47 => C D46 (g x y) | D48 => C D47 (g x y) | D49 => C D48 (g x y) | D50 => C D49 (g x y) | D51 => C D50 (g x y) | D52 => C D51 (g x y) | D53 => C D52 (g x y) | D54 => C D53 (g x y) | D55 => C D54 (g x y) | D56 => C D55 (g x y) | D57 => C D56 (g x y) | D58 => C D57 (g x y) | D59 => C D58 (g x y) | D60 => C D59 (g x y) | D61 => C D60 (g x y) | D62 => C D61 (g x y) | D63 => C D62 (g x y) end
    end.
Definition tab1 (f g : num -> num -> num) (d e : D) (x y : num) : num :=
    match d with
    | D0 => match e with | D0 => C D1 (f x y) | D1 => C D2 (f x y) | D2 => C D3 (f x y) | D3 => C D4 (f x y) | D4 => C D5 (f x y) | D5 => C D6 (f x y) | D6 => C D7 (f x y) | D7 => C D8 (f x y) | D8 => C D9 (f x y) | D9 => C D10 (f x y) | D10 => C D11 (f x y) | D11 => C D12 (f x y) | D12 => C D13 (f x y) | D13 => C D14 (f x y) | D14 => C D15 (f x y) | D15 => C D16 (f x y) | D16 => C D17 (f x y) | D17 => C D18 (f x y) | D18 => C D19 (f x y) | D19 => C D20 (f x y) | D20 => C D21 (f x y) | D21 => C D22 (f x y) | D22 => C D23 (f x y) | D23 => C D24 (f x y) | D24 => C D25 (f x y) | D25 => C D26 (f x y) | D26 => C D27 (f x y) | D27 => C D28 (f x y) | D28 => C D29 (f x y) | D29 => C D30 (f x y) | D30 => C D31 (f x y) | D31 => C D32 (f x y) | D32 => C D33 (f x y) | D33 => C D34 (f x y) | D34 => C D35 (f x y) | D35 => C D36 (f x y) | D36 => C D37 (f x y) | D37 => C D38 (f x y) | D38 => C D39 (f x y) | D39 => C D40 (f x y) | D40 => C D41 (f x y) | D41 => C D42 (f x y) | D42 => C D43 (f x y) | D43 => C D44 (f x y) | D44 => C D45 (f x y) | D45 => C D46 (f x y) | D46 => C D47 (f x y) | D47 => C D48 (f x y) | D48 => C D49 (f x y) | D49 => C D50 (f x y) | D50 => C D51 (f x y) | D51 => C D52 (f x y) | D52 => C D53 (f x y) | D53 => C D54 (f x y) | D54 => C D55 (f x y) | D55 => C D56 (f x y) | D56 => C D57 (f x y) | D57 => C D58 (f x y) | D58 => C D59 (f x y) | D59 => C D60 (f x y) | D60 => C D61 (f x y) | D61 => C D62 (f x y) | D62 => C D63 (f x y) | D63 => C D0 (g x y) end
    | D1 => match e with | D0 => C D2 (f x y) | D1 => C D3 (f x y) | D2 => C D4 (f x y) | D3 => C D5 (f x y) | D4 => C D6 (f x y) | D5 => C D7 (f x y) | D6 => C D8 (f x y) | D7 => C D9 (f x y) | D8 => C D10 (f x y) | D9 => C D11 (f x y) | D10 => C D12 (f x y) | D11 => C D13 (f x y) | D12 => C D14 (f x y) | D13 => C D15 (f x y) | D14 => C D16 (f x y) | D15 => C D17 (f x y) | D16 => C D18 (f x y) | D17 => C D19 (f x y) | D18 => C D20 (f x y) | D19 => C D21 (f x y) | D20 => C D22 (f x y) | D21 => C D23 (f x y) | D22 => C D24 (f x y) | D23 => C D25 (f x y) | D24 => C D26 (f x y) | D25 => C D27 (f x y) | D26 => C D28 (f x y) | D27 => C D29 (f x y) | D28 => C D30 (f x y) | D29 => C D31 (f x y) | D30 => C D32 (f x y) | D31 => C D33 (f x y) | D32 => C D34 (f x y) | D33 => C D35 (f x y) | D34 => C D36 (f x y) | D35 => C D37 (f x y) | D36 => C D38 (f x y) | D37 => C D39 (f x y) | D38 => C D40 (f x y) | D39 => C D41 (f x y) | D40 => C D42 (f x y) | D41 => C D43 (f x y) | D42 => C D44 (f x y) | D43 => C D45 (f x y) | D44 => C D46 (f x y) | D45 => C D47 (f x y) | D46 => C D48 (f x y) | D47 => C D49 (f x y) | D48 => C D50 (f x y) | D49 => C D51 (f x y) | D50 => C D52 (f x y) | D51 => C D53 (f x y) | D52 => C D54 (f x y) | D53 => C D55 (f x y) | D54 => C D56 (f x y) | D55 => C D57 (f x y) | D56 => C D58 (f x y) | D57 => C D59 (f x y) | D58 => C D60 (f x y) | D59 => C D61 (f x y) | D60 => C D62 (f x y) | D61 => C D63 (f x y) | D62 => C D0 (g x y) | D63 => C D1 (g x y) end
    | D2 => match e with | D0 => C D3 (f x y) | D1 => C D4 (f x y) | D2 => C D5 (f x y) | D3 => C D6 (f x y) | D4 => C D7 (f x y) | D5 => C D8 (f x y) | D6 => C D9 (f x y) | D7 => C D10 (f x y) | D8 => C D11 (f x y) | D9 => C D12 (f x y) | D10 => C D13 (f x y) | D11 => C D14 (f x y) | D12 => C D15 (f x y) | D13 => C D16 (f x y) | D14 => C D17 (f x y) | D15 => C D18 (f x y) | D16 => C D19 (f x y) | D17 => C D20 (f x y) | D18 => C D21 (f x y) | D19 => C D22 (f x y) | D20 => C D23 (f x y) | D21 => C D24 (f x y) | D22 => C D25 (f x y) | D23 => C D26 (f x y) | D24 => C D27 (f x y) | D25 => C D28 (f x y) | D26 => C D29 (f x y) | D27 => C D30 (f x y) | D28 => C D31 (f x y) | D29 => C D32 (f x y) | D30 => C D33 (f x y) | D31 => C D34 (f x y) | D32 => C D35 (f x y) | D33 => C D36 (f x y) | D34 => C D37 (f x y) | D35 => C D38 (f x y) | D36 => C D39 (f x y) | D37 => C D40 (f x y) | D38 => C D41 (f x y) | D39 => C D42 (f x y) | D40 => C D43 (f x y) | D41 => C D44 (f x y) | D42 => C D45 (f x y) | D43 => C D46 (f x y) | D44 => C D47 (f x y) | D45 => C D48 (f x y) | D46 => C D49 (f x y) | D47 => C D50 (f x y) | D48 => C D51 (f x y) | D49 => C D52 (f x y) | D50 => C D53 (f x y) | D51 => C D54 (f x y) | D52 => C D55 (f x y) | D53 => C D56 (f x y) | D54 => C D57 (f x y) | D55 => C D58 (f x y) | D56 => C D59 (f x y) | D57 => C D60 (f x y) | D58 => C D61 (f x y) | D59 => C D62 (f x y) | D60 => C D63 (f x y) | D61 => C D0 (g x y) | D62 => C D1 (g x y) | D63 => C D2 (g x y) end
    | D3 => match e with | D0 => C D4 (f x y) | D1 => C D5 (f x y) | D2 => C D6 (f x y) | D3 => C D7 (f x y) | D4 => C D8 (f x y) | D5 => C D9 (f x y) | D6 => C D10 (f x y) | D7 => C D11 (f x y) | D8 => C D12 (f x y) | D9 => C D13 (f x y) | D10 => C D14 (f x y) | D11 => C D15 (f x y) | D12 => C D16 (f x y) | D13 => C D17 (f x y) | D14 => C D18 (f x y) | D15 => C D19 (f x y) | D16 => C D20 (f x y) | D17 => C D21 (f x y) | D18 => C D22 (f x y) | D19 => C D23 (f x y) | D20 => C D24 (f x y) | D21 => C D25 (f x y) | D22 => C D26 (f x y) | D23 => C D27 (f x y) | D24 => C D28 (f x y) | D25 => C D29 (f x y) | D26 => C D30 (f x y) | D27 => C D31 (f x y) | D28 => C D32 (f x y) | D29 => C D33 (f x y) | D30 => C D34 (f x y) | D31 => C D35 (f x y) | D32 => C D36 (f x y) | D33 => C D37 (f x y) | D34 => C D38 (f x y) | D35 => C D39 (f x y) | D36 => C D40 (f x y) | D37 => C D41 (f x y) | D38 => C D42 (f x y) | D39 => C D43 (f x y) | D40 => C D44 (f x y) | D41 => C D45 (f x y) | D42 => C D46 (f x y) | D43 => C D47 (f x y) | D44 => C D48 (f x y) | D45 => C D49 (f x y) | D46 => C D50 (f x y) | D47 => C D51 (f x y) | D48 => C D52 (f x y) | D49 => C D53 (f x y) | D50 => C D54 (f x y) | D51 => C D55 (f x y) | D52 => C D56 (f x y) | D53 => C D57 (f x y) | D54 => C D58 (f x y) | D55 => C D59 (f x y) | D56 => C D60 (f x y) | D57 => C D61 (f x y) | D58 => C D62 (f x y) | D59 => C D63 (f x y) | D60 => C D0 (g x y) | D61 => C D1 (g x y) | D62 => C D2 (g x y) | D63 => C D3 (g x y) end
    | D4 => match e with | D0 => C D5 (f x y) | D1 => C D6 (f x y) | D2 => C D7 (f x y) | D3 => C D8 (f x y) | D4 => C D9 (f x y) | D5 => C D10 (f x y) | D6 => C D11 (f x y) | D7 => C D12 (f x y) | D8 => C D13 (f x y) | D9 => C D14 (f x y) | D10 => C D15 (f x y) | D11 => C D16 (f x y) | D12 => C D17 (f x y) | D13 => C D18 (f x y) | D14 => C D19 (f x y) | D15 => C D20 (f x y) | D16 => C D21 (f x y) | D17 => C D22 (f x y) | D18 => C D23 (f x y) | D19 => C D24 (f x y) | D20 => C D25 (f x y) | D21 => C D26 (f x y) | D22 => C D27 (f x y) | D23 => C D28 (f x y) | D24 => C D29 (f x y) | D25 => C D30 (f x y) | D26 => C D31 (f x y) | D27 => C D32 (f x y) | D28 => C D33 (f x y) | D29 => C D34 (f x y) | D30 => C D35 (f x y) | D31 => C D36 (f x y) | D32 => C D37 (f x y) | D33 => C D38 (f x y) | D34 => C D39 (f x y) | D35 => C D40 (f x y) | D36 => C D41 (f x y) | D37 => C D42 (f x y) | D38 => C D43 (f x y) | D39 => C D44 (f x y) | D40 => C D45 (f x y) | D41 => C D46 (f x y) | D42 => C D47 (f x y) | D43 => C D48 (f x y) | D44 => C D49 (f x y) | D45 => C D50 (f x y) | D46 => C D51 (f x y) | D47 => C D52 (f x y) | D48 => C D53 (f x y) | D49 => C D54 (f x y) | D50 => C D55 (f x y) | D51 => C D56 (f x y) | D52 => C D57 (f x y) | D53 => C D58 (f x y) | D54 => C D59 (f x y) | D55 => C D60 (f x y) | D56 => C D61 (f x y) | D57 => C D62 (f x y) | D58 => C D63 (f x y) | D59 => C D0 (g x y) | D60 => C D1 (g x y) | D61 => C D2 (g x y) | D62 => C D3 (g x y) | D63 => C D4 (g x y) end
    | D5 => match e with | D0 => C D6 (f x y) | D1 => C D7 (f x y) | D2 => C D8 (f x y) | D3 => C D9 (f x y) | D4 => C D10 (f x y) | D5 => C D11 (f x y) | D6 => C D12 (f x y) | D7 => C D13 (f x y) | D8 => C D14 (f x y) | D9 => C D15 (f x y) | D10 => C D16 (f x y) | D11 => C D17 (f x y) | D12 => C D18 (f x y) | D13 => C D19 (f x y) | D14 => C D20 (f x y) | D15 => C D21 (f x y) | D16 => C D22 (f x y) | D17 => C D23 (f x y) | D18 => C D24 (f x y) | D19 => C D25 (f x y) | D20 => C D26 (f x y) | D21 => C D27 (f x y) | D22 => C D28 (f x y) | D23 => C D29 (f x y) | D24 => C D30 (f x y) | D25 => C D31 (f x y) | D26 => C D32 (f x y) | D27 => C D33 (f x y) | D28 => C D34 (f x y) | D29 => C D35 (f x y) | D30 => C D36 (f x y) | D31 => C D37 (f x y) | D32 => C D38 (f x y) | D33 => C D39 (f x y) | D34 => C D40 (f x y) | D35 => C D41 (f x y) | D36 => C D42 (f x y) | D37 => C D43 (f x y) | D38 => C D44 (f x y) | D39 => C D45 (f x y) | D40 => C D46 (f x y) | D41 => C D47 (f x y) | D42 => C D48 (f x y) | D43 => C D49 (f x y) | D44 => C D50 (f x y) | D45 => C D51 (f x y) | D46 => C D52 (f x y) | D47 => C D53 (f x y) | D48 => C D54 (f x y) | D49 => C D55 (f x y) | D50 => C D56 (f x y) | D51 => C D57 (f x y) | D52 => C D58 (f x y) | D53 => C D59 (f x y) | D54 => C D60 (f x y) | D55 => C D61 (f x y) | D56 => C D62 (f x y) | D57 => C D63 (f x y) | D58 => C D0 (g x y) | D59 => C D1 (g x y) | D60 => C D2 (g x y) | D61 => C D3 (g x y) | D62 => C D4 (g x y) | D63 => C D5 (g x y) end
    | D6 => match e with | D0 => C D7 (f x y) | D1 => C D8 (f x y) | D2 => C D9 (f x y) | D3 => C D10 (f x y) | D4 => C D11 (f x y) | D5 => C D12 (f x y) | D6 => C D13 (f x y) | D7 => C D14 (f x y) | D8 => C D15 (f x y) | D9 => C D16 (f x y) | D10 => C D17 (f x y) | D11 => C D18 (f x y) | D12 => C D19 (f x y) | D13 => C D20 (f x y) | D14 => C D21 (f x y) | D15 => C D22 (f x y) | D16 => C D23 (f x y) | D17 => C D24 (f x y) | D18 => C D25 (f x y) | D19 => C D26 (f x y) | D20 => C D27 (f x y) | D21 => C D28 (f x y) | D22 => C D29 (f x y) | D23 => C D30 (f x y) | D24 => C D31 (f x y) | D25 => C D32 (f x y) | D26 => C D33 (f x y) | D27 => C D34 (f x y) | D28 => C D35 (f x y) | D29 => C D36 (f x y) | D30 => C D37 (f x y) | D31 => C D38 (f x y) | D32 => C D39 (f x y) | D33 => C D40 (f x y) | D34 => C D41 (f x y) | D35 => C D42 (f x y) | D36 => C D43 (f x y) | D37 => C D44 (f x y) | D38 => C D45 (f x y) | D39 => C D46 (f x y) | D40 => C D47 (f x y) | D41 => C D48 (f x y) | D42 => C D49 (f x y) | D43 => C D50 (f x y) | D44 => C D51 (f x y) | D45 => C D52 (f x y) | D46 => C D53 (f x y) | D47 => C D54 (f x y) | D48 => C D55 (f x y) | D49 => C D56 (f x y) | D50 => C D57 (f x y) | D51 => C D58 (f x y) | D52 => C D59 (f x y) | D53 => C D60 (f x y) | D54 => C D61 (f x y) | D55 => C D62 (f x y) | D56 => C D63 (f x y) | D57 => C D0 (g x y) | D58 => C D1 (g x y) | D59 => C D2 (g x y) | D60 => C D3 (g x y) | D61 => C D4 (g x y) | D62 => C D5 (g x y) | D63 => C D6 (g x y) end
    | D7 => match e with | D0 => C D8 (f x y) | D1 => C D9 (f x y) | D2 => C D10 (f x y) | D3 => C D11 (f x y) | D4 => C D12 (f x y) | D5 => C D13 (f x y) | D6 => C D14 (f x y) | D7 => C D15 (f x y) | D8 => C D16 (f x y) | D9 => C D17 (f x y) | D10 => C D18 (f x y) | D11 => C D19 (f x y) | D12 => C D20 (f x y) | D13 => C D21 (f x y) | D14 => C D22 (f x y) | D15 => C D23 (f x y) | D16 => C D24 (f x y) | D17 => C D25 (f x y) | D18 => C D26 (f x y) | D19 => C D27 (f x y) | D20 => C D28 (f x y) | D21 => C D29 (f x y) | D22 => C D30 (f x y) | D23 => C D31 (f x y) | D24 => C D32 (f x y) | D25 => C D33 (f x y) | D26 => C D34 (f x y) | D27 => C D35 (f x y) | D28 => C D36 (f x y) | D29 => C D37 (f x y) | D30 => C D38 (f x y) | D31 => C D39 (f x y) | D32 => C D40 (f x y) | D33 => C D41 (f x y) | D34 => C D42 (f x y) | D35 => C D43 (f x y) | D36 => C D44 (f x y) | D37 => C D45 (f x y) | D38 => C D46 (f x y) | D39 => C D47 (f x y) | D40 => C D48 (f x y) | D41 => C D49 (f x y) | D42 => C D50 (f x y) | D43 => C D51 (f x y) | D44 => C D52 (f x y) | D45 => C D53 (f x y) | D46 => C D54 (f x y) | D47 => C D55 (f x y) | D48 => C D56 (f x y) | D49 => C D57 (f x y) | D50 => C D58 (f x y) | D51 => C D59 (f x y) | D52 => C D60 (f x y) | D53 => C D61 (f x y) | D54 => C D62 (f x y) | D55 => C D63 (f x y) | D56 => C D0 (g x y) | D57 => C D1 (g x y) | D58 => C D2 (g x y) | D59 => C D3 (g x y) | D60 => C D4 (g x y) | D61 => C D5 (g x y) | D62 => C D6 (g x y) | D63 => C D7 (g x y) end
    | D8 => match e with | D0 => C D9 (f x y) | D1 => C D10 (f x y) | D2 => C D11 (f x y) | D3 => C D12 (f x y) | D4 => C D13 (f x y) | D5 => C D14 (f x y) | D6 => C D15 (f x y) | D7 => C D16 (f x y) | D8 => C D17 (f x y) | D9 => C D18 (f x y) | D10 => C D19 (f x y) | D11 => C D20 (f x y) | D12 => C D21 (f x y) | D13 => C D22 (f x y) | D14 => C D23 (f x y) | D15 => C D24 (f x y) | D16 => C D25 (f x y) | D17 => C D26 (f x y) | D18 => C D27 (f x y) | D19 => C D28 (f x y) | D20 => C D29 (f x y) | D21 => C D30 (f x y) | D22 => C D31 (f x y) | D23 => C D32 (f x y) | D24 => C D33 (f x y) | D25 => C D34 (f x y) | D26 => C D35 (f x y) | D27 => C D36 (f x y) | D28 => C D37 (f x y) | D29 => C D38 (f x y) | D30 => C D39 (f x y) | D31 => C D40 (f x y) | D32 => C D41 (f x y) | D33 => C D42 (f x y) | D34 => C D43 (f x y) | D35 => C D44 (f x y) | D36 => C D45 (f x y) | D37 => C D46 (f x y) | D38 => C D47 (f x y) | D39 => C D48 (f x y) | D40 => C D49 (f x y) | D41 => C D50 (f x y) | D42 => C D51 (f x y) | D43 => C D52 (f x y) | D44 => C D53 (f x y) | D45 => C D54 (f x y) | D46 => C D55 (f x y) | D47 => C D56 (f x y) | D48 => C D57 (f x y) | D49 => C D58 (f x y) | D50 => C D59 (f x y) | D51 => C D60 (f x y) | D52 => C D61 (f x y) | D53 => C D62 (f x y) | D54 => C D63 (f x y) | D55 => C D0 (g x y) | D56 => C D1 (g x y) | D57 => C D2 (g x y) | D58 => C D3 (g x y) | D59 => C D4 (g x y) | D60 => C D5 (g x y) | D61 => C D6 (g x y) | D62 => C D7 (g x y) | D63 => C D8 (g x y) end
    | D9 => match e with | D0 => C D10 (f x y) | D1 => C D11 (f x y) | D2 => C D12 (f x y) | D3 => C D13 (f x y) | D4 => C D14 (f x y) | D5 => C D15 (f x y) | D6 => C D16 (f x y) | D7 => C D17 (f x y) | D8 => C D18 (f x y) | D9 => C D19 (f x y) | D10 => C D20 (f x y) | D11 => C D21 (f x y) | D12 => C D22 (f x y) | D13 => C D23 (f x y) | D14 => C D24 (f x y) | D15 => C D25 (f x y) | D16 => C D26 (f x y) | D17 => C D27 (f x y) | D18 => C D28 (f x y) | D19 => C D29 (f x y) | D20 => C D30 (f x y) | D21 => C D31 (f x y) | D22 => C D32 (f x y) | D23 => C D33 (f x y) | D24 => C D34 (f x y) | D25 => C D35 (f x y) | D26 => C D36 (f x y) | D27 => C D37 (f x y) | D28 => C D38 (f x y) | D29 => C D39 (f x y) | D30 => C D40 (f x y) | D31 => C D41 (f x y) | D32 => C D42 (f x y) | D33 => C D43 (f x y) | D34 => C D44 (f x y) | D35 => C D45 (f x y) | D36 => C D46 (f x y) | D37 => C D47 (f x y) | D38 => C D48 (f x y) | D39 => C D49 (f x y) | D40 => C D50 (f x y) | D41 => C D51 (f x y) | D42 => C D52 (f x y) | D43 => C D53 (f x y) | D44 => C D54 (f x y) | D45 => C D55 (f x y) | D46 => C D56 (f x y) | D47 => C D57 (f x y) | D48 => C D58 (f x y) | D49 => C D59 (f x y) | D50 => C D60 (f x y) | D51 => C D61 (f x y) | D52 => C D62 (f x y) | D53 => C D63 (f x y) | D54 => C D0 (g x y) | D55 => C D1 (g x y) | D56 => C D2 (g x y) | D57 => C D3 (g x y) | D58 => C D4 (g x y) | D59 => C D5 (g x y) | D60 => C D6 (g x y) | D61 => C D7 (g x y) | D62 => C D8 (g x y) | D63 => C D9 (g x y) end
    | D10 => match e with | D0 => C D11 (f x y) | D1 => C D12 (f x y) | D2 => C D13 (f x y) | D3 => C D14 (f x y) | D4 => C D15 (f x y) | D5 => C D16 (f x y) | D6 => C D17 (f x y) | D7 => C D18 (f x y) | D8 => C D19 (f x y) | D9 => C D20 (f x y) | D10 => C D21 (f x y) | D11 => C D22 (f x y) | D12 => C D23 (f x y) | D13 => C D24 (f x y) | D14 => C D25 (f x y) | D15 => C D26 (f x y) | D16 => C D27 (f x y) | D17 => C D28 (f x y) | D18 => C D29 (f x y) | D19 => C D30 (f x y) | D20 => C D31 (f x y) | D21 => C D32 (f x y) | D22 => C D33 (f x y) | D23 => C D34 (f x y) | D24 => C D35 (f x y) | D25 => C D36 (f x y) | D26 => C D37 (f x y) | D27 => C D38 (f x y) | D28 => C D39 (f x y) | D29 => C D40 (f x y) | D30 => C D41 (f x y) | D31 => C D42 (f x y) | D32 => C D43 (f x y) | D33 => C D44 (f x y) | D34 => C D45 (f x y) | D35 => C D46 (f x y) | D36 => C D47 (f x y) | D37 => C D48 (f x y) | D38 => C D49 (f x y) | D39 => C D50 (f x y) | D40 => C D51 (f x y) | D41 => C D52 (f x y) | D42 => C D53 (f x y) | D43 => C D54 (f x y) | D44 => C D55 (f x y) | D45 => C D56 (f x y) | D46 => C D57 (f x y) | D47 => C D58 (f x y) | D48 => C D59 (f x y) | D49 => C D60 (f x y) | D50 => C D61 (f x y) | D51 => C D62 (f x y) | D52 => C D63 (f x y) | D53 => C D0 (g x y) | D54 => C D1 (g x y) | D55 => C D2 (g x y) | D56 => C D3 (g x y) | D57 => C D4 (g x y) | D58 => C D5 (g x y) | D59 => C D6 (g x y) | D60 => C D7 (g x y) | D61 => C D8 (g x y) | D62 => C D9 (g x y) | D63 => C D10 (g x y) end
    | D11 => match e with | D0 => C D12 (f x y) | D1 => C D13 (f x y) | D2 => C D14 (f x y) | D3 => C D15 (f x y) | D4 => C D16 (f x y) | D5 => C D17 (f x y) | D6 => C D18 (f x y) | D7 => C D19 (f x y) | D8 => C D20 (f x y) | D9 => C D21 (f x y) | D10 => C D22 (f x y) | D11 => C D23 (f x y) | D12 => C D24 (f x y) | D13 => C D25 (f x y) | D14 => C D26 (f x y) | D15 => C D27 (f x y) | D16 => C D28 (f x y) | D17 => C D29 (f x y) | D18 => C D30 (f x y) | D19 => C D31 (f x y) | D20 => C D32 (f x y) | D21 => C D33 (f x y) | D22 => C D34 (f x y) | D23 => C D35 (f x y) | D24 => C D36 (f x y) | D25 => C D37 (f x y) | D26 => C D38 (f x y) | D27 => C D39 (f x y) | D28 => C D40 (f x y) | D29 => C D41 (f x y) | D30 => C D42 (f x y) | D31 => C D43 (f x y) | D32 => C D44 (f x y) | D33 => C D45 (f x y) | D34 => C D46 (f x y) | D35 => C D47 (f x y) | D36 => C D48 (f x y) | D37 => C D49 (f x y) | D38 => C D50 (f x y) | D39 => C D51 (f x y) | D40 => C D52 (f x y) | D41 => C D53 (f x y) | D42 => C D54 (f x y) | D43 => C D55 (f x y) | D44 => C D56 (f x y) | D45 => C D57 (f x y) | D46 => C D58 (f x y) | D47 => C D59 (f x y) | D48 => C D60 (f x y) | D49 => C D61 (f x y) | D50 => C D62 (f x y) | D51 => C D63 (f x y) | D52 => C D0 (g x y) | D53 => C D1 (g x y) | D54 => C D2 (g x y) | D55 => C D3 (g x y) | D56 => C D4 (g x y) | D57 => C D5 (g x y) | D58 => C D6 (g x y) | D59 => C D7 (g x y) | D60 => C D8 (g x y) | D61 => C D9 (g x y) | D62 => C D10 (g x y) | D63 => C D11 (g x y) end
    | D12 => match e with | D0 => C D13 (f x y) | D1 => C D14 (f x y) | D2 => C D15 (f x y) | D3 => C D16 (f x y) | D4 => C D17 (f x y) | D5 => C D18 (f x y) | D6 => C D19 (f x y) | D7 => C D20 (f x y) | D8 => C D21 (f x y) | D9 => C D22 (f x y) | D10 => C D23 (f x y) | D11 => C D24 (f x y) | D12 => C D25 (f x y) | D13 => C D26 (f x y) | D14 => C D27 (f x y) | D15 => C D28 (f x y) | D16 => C D29 (f x y) | D17 => C D30 (f x y) | D18 => C D31 (f x y) | D19 => C D32 (f x y) | D20 => C D33 (f x y) | D21 => C D34 (f x y) | D22 => C D35 (f x y) | D23 => C D36 (f x y) | D24 => C D37 (f x y) | D25 => C D38 (f x y) | D26 => C D39 (f x y) | D27 => C D40 (f x y) | D28 => C D41 (f x y) | D29 => C D42 (f x y) | D30 => C D43 (f x y) | D31 => C D44 (f x y) | D32 => C D45 (f x y) | D33 => C D46 (f x y) | D34 => C D47 (f x y) | D35 => C D48 (f x y) | D36 => C D49 (f x y) | D37 => C D50 (f x y) | D38 => C D51 (f x y) | D39 => C D52 (f x y) | D40 => C D53 (f x y) | D41 => C D54 (f x y) | D42 => C D55 (f x y) | D43 => C D56 (f x y) | D44 => C D57 (f x y) | D45 => C D58 (f x y) | D46 => C D59 (f x y) | D47 => C D60 (f x y) | D48 => C D61 (f x y) | D49 => C D62 (f x y) | D50 => C D63 (f x y) | D51 => C D0 (g x y) | D52 => C D1 (g x y) | D53 => C D2 (g x y) | D54 => C D3 (g x y) | D55 => C D4 (g x y) | D56 => C D5 (g x y) | D57 => C D6 (g x y) | D58 => C D7 (g x y) | D59 => C D8 (g x y) | D60 => C D9 (g x y) | D61 => C D10 (g x y) | D62 => C D11 (g x y) | D63 => C D12 (g x y) end
    | D13 => match e with | D0 => C D14 (f x y) | D1 => C D15 (f x y) | D2 => C D16 (f x y) | D3 => C D17 (f x y) | D4 => C D18 (f x y) | D5 => C D19 (f x y) | D6 => C D20 (f x y) | D7 => C D21 (f x y) | D8 => C D22 (f x y) | D9 => C D23 (f x y) | D10 => C D24 (f x y) | D11 => C D25 (f x y) | D12 => C D26 (f x y) | D13 => C D27 (f x y) | D14 => C D28 (f x y) | D15 => C D29 (f x y) | D16 => C D30 (f x y) | D17 => C D31 (f x y) | D18 => C D32 (f x y) | D19 => C D33 (f x y) | D20 => C D34 (f x y) | D21 => C D35 (f x y) | D22 => C D36 (f x y) | D23 => C D37 (f x y) | D24 => C D38 (f x y) | D25 => C D39 (f x y) | D26 => C D40 (f x y) | D27 => C D41 (f x y) | D28 => C D42 (f x y) | D29 => C D43 (f x y) | D30 => C D44 (f x y) | D31 => C D45 (f x y) | D32 => C D46 (f x y) | D33 => C D47 (f x y) | D34 => C D48 (f x y) | D35 => C D49 (f x y) | D36 => C D50 (f x y) | D37 => C D51 (f x y) | D38 => C D52 (f x y) | D39 => C D53 (f x y) | D40 => C D54 (f x y) | D41 => C D55 (f x y) | D42 => C D56 (f x y) | D43 => C D57 (f x y) | D44 => C D58 (f x y) | D45 => C D59 (f x y) | D46 => C D60 (f x y) | D47 => C D61 (f x y) | D48 => C D62 (f x y) | D49 => C D63 (f x y) | D50 => C D0 (g x y) | D51 => C D1 (g x y) | D52 => C D2 (g x y) | D53 => C D3 (g x y) | D54 => C D4 (g x y) | D55 => C D5 (g x y) | D56 => C D6 (g x y) | D57 => C D7 (g x y) | D58 => C D8 (g x y) | D59 => C D9 (g x y) | D60 => C D10 (g x y) | D61 => C D11 (g x y) | D62 => C D12 (g x y) | D63 => C D13 (g x y) end
    | D14 => match e with | D0 => C D15 (f x y) | D1 => C D16 (f x y) | D2 => C D17 (f x y) | D3 => C D18 (f x y) | D4 => C D19 (f x y) | D5 => C D20 (f x y) | D6 => C D21 (f x y) | D7 => C D22 (f x y) | D8 => C D23 (f x y) | D9 => C D24 (f x y) | D10 => C D25 (f x y) | D11 => C D26 (f x y) | D12 => C D27 (f x y) | D13 => C D28 (f x y) | D14 => C D29 (f x y) | D15 => C D30 (f x y) | D16 => C D31 (f x y) | D17 => C D32 (f x y) | D18 => C D33 (f x y) | D19 => C D34 (f x y) | D20 => C D35 (f x y) | D21 => C D36 (f x y) | D22 => C D37 (f x y) | D23 => C D38 (f x y) | D24 => C D39 (f x y) | D25 => C D40 (f x y) | D26 => C D41 (f x y) | D27 => C D42 (f x y) | D28 => C D43 (f x y) | D29 => C D44 (f x y) | D30 => C D45 (f x y) | D31 => C D46 (f x y) | D32 => C D47 (f x y) | D33 => C D48 (f x y) | D34 => C D49 (f x y) | D35 => C D50 (f x y) | D36 => C D51 (f x y) | D37 => C D52 (f x y) | D38 => C D53 (f x y) | D39 => C D54 (f x y) | D40 => C D55 (f x y) | D41 => C D56 (f x y) | D42 => C D57 (f x y) | D43 => C D58 (f x y) | D44 => C D59 (f x y) | D45 => C D60 (f x y) | D46 => C D61 (f x y) | D47 => C D62 (f x y) | D48 => C D63 (f x y) | D49 => C D0 (g x y) | D50 => C D1 (g x y) | D51 => C D2 (g x y) | D52 => C D3 (g x y) | D53 => C D4 (g x y) | D54 => C D5 (g x y) | D55 => C D6 (g x y) | D56 => C D7 (g x y) | D57 => C D8 (g x y) | D58 => C D9 (g x y) | D59 => C D10 (g x y) | D60 => C D11 (g x y) | D61 => C D12 (g x y) | D62 => C D13 (g x y) | D63 => C D14 (g x y) end
    | D15 => match e with | D0 => C D16 (f x y) | D1 => C D17 (f x y) | D2 => C D18 (f x y) | D3 => C D19 (f x y) | D4 => C D20 (f x y) | D5 => C D21 (f x y) | D6 => C D22 (f x y) | D7 => C D23 (f x y) | D8 => C D24 (f x y) | D9 => C D25 (f x y) | D10 => C D26 (f x y) | D11 => C D27 (f x y) | D12 => C D28 (f x y) | D13 => C D29 (f x y) | D14 => C D30 (f x y) | D15 => C D31 (f x y) | D16 => C D32 (f x y) | D17 => C D33 (f x y) | D18 => C D34 (f x y) | D19 => C D35 (f x y) | D20 => C D36 (f x y) | D21 => C D37 (f x y) | D22 => C D38 (f x y) | D23 => C D39 (f x y) | D24 => C D40 (f x y) | D25 => C D41 (f x y) | D26 => C D42 (f x y) | D27 => C D43 (f x y) | D28 => C D44 (f x y) | D29 => C D45 (f x y) | D30 => C D46 (f x y) | D31 => C D47 (f x y) | D32 => C D48 (f x y) | D33 => C D49 (f x y) | D34 => C D50 (f x y) | D35 => C D51 (f x y) | D36 => C D52 (f x y) | D37 => C D53 (f x y) | D38 => C D54 (f x y) | D39 => C D55 (f x y) | D40 => C D56 (f x y) | D41 => C D57 (f x y) | D42 => C D58 (f x y) | D43 => C D59 (f x y) | D44 => C D60 (f x y) | D45 => C D61 (f x y) | D46 => C D62 (f x y) | D47 => C D63 (f x y) | D48 => C D0 (g x y) | D49 => C D1 (g x y) | D50 => C D2 (g x y) | D51 => C D3 (g x y) | D52 => C D4 (g x y) | D53 => C D5 (g x y) | D54 => C D6 (g x y) | D55 => C D7 (g x y) | D56 => C D8 (g x y) | D57 => C D9 (g x y) | D58 => C D10 (g x y) | D59 => C D11 (g x y) | D60 => C D12 (g x y) | D61 => C D13 (g x y) | D62 => C D14 (g x y) | D63 => C D15 (g x y) end
    | D16 => match e with | D0 => C D17 (f x y) | D1 => C D18 (f x y) | D2 => C D19 (f x y) | D3 => C D20 (f x y) | D4 => C D21 (f x y) | D5 => C D22 (f x y) | D6 => C D23 (f x y) | D7 => C D24 (f x y) | D8 => C D25 (f x y) | D9 => C D26 (f x y) | D10 => C D27 (f x y) | D11 => C D28 (f x y) | D12 => C D29 (f x y) | D13 => C D30 (f x y) | D14 => C D31 (f x y) | D15 => C D32 (f x y) | D16 => C D33 (f x y) | D17 => C D34 (f x y) | D18 => C D35 (f x y) | D19 => C D36 (f x y) | D20 => C D37 (f x y) | D21 => C D38 (f x y) | D22 => C D39 (f x y) | D23 => C D40 (f x y) | D24 => C D41 (f x y) | D25 => C D42 (f x y) | D26 => C D43 (f x y) | D27 => C D44 (f x y) | D28 => C D45 (f x y) | D29 => C D46 (f x y) | D30 => C D47 (f x y) | D31 => C D48 (f x y) | D32 => C D49 (f x y) | D33 => C D50 (f x y) | D34 => C D51 (f x y) | D35 => C D52 (f x y) | D36 => C D53 (f x y) | D37 => C D54 (f x y) | D38 => C D55 (f x y) | D39 => C D56 (f x y) | D40 => C D57 (f x y) | D41 => C D58 (f x y) | D42 => C D59 (f x y) | D43 => C D60 (f x y) | D44 => C D61 (f x y) | D45 => C D62 (f x y) | D46 => C D63 (f x y) | D47 => C D0 (g x y) | D48 => C D1 (g x y) | D49 => C D2 (g x y) | D50 => C D3 (g x y) | D51 => C D4 (g x y) | D52 => C D5 (g x y) | D53 => C D6 (g x y) | D54 => C D7 (g x y) | D55 => C D8 (g x y) | D56 => C D9 (g x y) | D57 => C D10 (g x y) | D58 => C D11 (g x y) | D59 => C D12 (g x y) | D60 => C D13 (g x y) | D61 => C D14 (g x y) | D62 => C D15 (g x y) | D63 => C D16 (g x y) end
    | D17 => match e with | D0 => C D18 (f x y) | D1 => C D19 (f x y) | D2 => C D20 (f x y) | D3 => C D21 (f x y) | D4 => C D22 (f x y) | D5 => C D23 (f x y) | D6 => C D24 (f x y) | D7 => C D25 (f x y) | D8 => C D26 (f x y) | D9 => C D27 (f x y) | D10 => C D28 (f x y) | D11 => C D29 (f x y) | D12 => C D30 (f x y) | D13 => C D31 (f x y) | D14 => C D32 (f x y) | D15 => C D33 (f x y) | D16 => C D34 (f x y) | D17 => C D35 (f x y) | D18 => C D36 (f x y) | D19 => C D37 (f x y) | D20 => C D38 (f x y) | D21 => C D39 (f x y) | D22 => C D40 (f x y) | D23 => C D41 (f x y) | D24 => C D42 (f x y) | D25 => C D43 (f x y) | D26 => C D44 (f x y) | D27 => C D45 (f x y) | D28 => C D46 (f x y) | D29 => C D47 (f x y) | D30 => C D48 (f x y) | D31 => C D49 (f x y) | D32 => C D50 (f x y) | D33 => C D51 (f x y) | D34 => C D52 (f x y) | D35 => C D53 (f x y) | D36 => C D54 (f x y) | D37 => C D55 (f x y) | D38 => C D56 (f x y) | D39 => C D57 (f x y) | D40 => C D58 (f x y) | D41 => C D59 (f x y) | D42 => C D60 (f x y) | D43 => C D61 (f x y) | D44 => C D62 (f x y) | D45 => C D63 (f x y) | D46 => C D0 (g x y) | D47 => C D1 (g x y) | D48 => C D2 (g x y) | D49 => C D3 (g x y) | D50 => C D4 (g x y) | D51 => C D5 (g x y) | D52 => C D6 (g x y) | D53 => C D7 (g x y) | D54 => C D8 (g x y) | D55 => C D9 (g x y) | D56 => C D10 (g x y) | D57 => C D11 (g x y) | D58 => C D12 (g x y) | D59 => C D13 (g x y) | D60 => C D14 (g x y) | D61 => C D15 (g x y) | D62 => C D16 (g x y) | D63 => C D17 (g x y) end
    | D18 => match e with | D0 => C D19 (f x y) | D1 => C D20 (f x y) | D2 => C D21 (f x y) | D3 => C D22 (f x y) | D4 => C D23 (f x y) | D5 => C D24 (f x y) | D6 => C D25 (f x y) | D7 => C D26 (f x y) | D8 => C D27 (f x y) | D9 => C D28 (f x y) | D10 => C D29 (f x y) | D11 => C D30 (f x y) | D12 => C D31 (f x y) | D13 => C D32 (f x y) | D14 => C D33 (f x y) | D15 => C D34 (f x y) | D16 => C D35 (f x y) | D17 => C D36 (f x y) | D18 => C D37 (f x y) | D19 => C D38 (f x y) | D20 => C D39 (f x y) | D21 => C D40 (f x y) | D22 => C D41 (f x y) | D23 => C D42 (f x y) | D24 => C D43 (f x y) | D25 => C D44 (f x y) | D26 => C D45 (f x y) | D27 => C D46 (f x y) | D28 => C D47 (f x y) | D29 => C D48 (f x y) | D30 => C D49 (f x y) | D31 => C D50 (f x y) | D32 => C D51 (f x y) | D33 => C D52 (f x y) | D34 => C D53 (f x y) | D35 => C D54 (f x y) | D36 => C D55 (f x y) | D37 => C D56 (f x y) | D38 => C D57 (f x y) | D39 => C D58 (f x y) | D40 => C D59 (f x y) | D41 => C D60 (f x y) | D42 => C D61 (f x y) | D43 => C D62 (f x y) | D44 => C D63 (f x y) | D45 => C D0 (g x y) | D46 => C D1 (g x y) | D47 => C D2 (g x y) | D48 => C D3 (g x y) | D49 => C D4 (g x y) | D50 => C D5 (g x y) | D51 => C D6 (g x y) | D52 => C D7 (g x y) | D53 => C D8 (g x y) | D54 => C D9 (g x y) | D55 => C D10 (g x y) | D56 => C D11 (g x y) | D57 => C D12 (g x y) | D58 => C D13 (g x y) | D59 => C D14 (g x y) | D60 => C D15 (g x y) | D61 => C D16 (g x y) | D62 => C D17 (g x y) | D63 => C D18 (g x y) end
    | D19 => match e with | D0 => C D20 (f x y) | D1 => C D21 (f x y) | D2 => C D22 (f x y) | D3 => C D23 (f x y) | D4 => C D24 (f x y) | D5 => C D25 (f x y) | D6 => C D26 (f x y) | D7 => C D27 (f x y) | D8 => C D28 (f x y) | D9 => C D29 (f x y) | D10 => C D30 (f x y) | D11 => C D31 (f x y) | D12 => C D32 (f x y) | D13 => C D33 (f x y) | D14 => C D34 (f x y) | D15 => C D35 (f x y) | D16 => C D36 (f x y) | D17 => C D37 (f x y) | D18 => C D38 (f x y) | D19 => C D39 (f x y) | D20 => C D40 (f x y) | D21 => C D41 (f x y) | D22 => C D42 (f x y) | D23 => C D43 (f x y) | D24 => C D44 (f x y) | D25 => C D45 (f x y) | D26 => C D46 (f x y) | D27 => C D47 (f x y) | D28 => C D48 (f x y) | D29 => C D49 (f x y) | D30 => C D50 (f x y) | D31 => C D51 (f x y) | D32 => C D52 (f x y) | D33 => C D53 (f x y) | D34 => C D54 (f x y) | D35 => C D55 (f x y) | D36 => C D56 (f x y) | D37 => C D57 (f x y) | D38 => C D58 (f x y) | D39 => C D59 (f x y) | D40 => C D60 (f x y) | D41 => C D61 (f x y) | D42 => C D62 (f x y) | D43 => C D63 (f x y) | D44 => C D0 (g x y) | D45 => C D1 (g x y) | D46 => C D2 (g x y) | D47 => C D3 (g x y) | D48 => C D4 (g x y) | D49 => C D5 (g x y) | D50 => C D6 (g x y) | D51 => C D7 (g x y) | D52 => C D8 (g x y) | D53 => C D9 (g x y) | D54 => C D10 (g x y) | D55 => C D11 (g x y) | D56 => C D12 (g x y) | D57 => C D13 (g x y) | D58 => C D14 (g x y) | D59 => C D15 (g x y) | D60 => C D16 (g x y) | D61 => C D17 (g x y) | D62 => C D18 (g x y) | D63 => C D19 (g x y) end
    | D20 => match e with | D0 => C D21 (f x y) | D1 => C D22 (f x y) | D2 => C D23 (f x y) | D3 => C D24 (f x y) | D4 => C D25 (f x y) | D5 => C D26 (f x y) | D6 => C D27 (f x y) | D7 => C D28 (f x y) | D8 => C D29 (f x y) | D9 => C D30 (f x y) | D10 => C D31 (f x y) | D11 => C D32 (f x y) | D12 => C D33 (f x y) | D13 => C D34 (f x y) | D14 => C D35 (f x y) | D15 => C D36 (f x y) | D16 => C D37 (f x y) | D17 => C D38 (f x y) | D18 => C D39 (f x y) | D19 => C D40 (f x y) | D20 => C D41 (f x y) | D21 => C D42 (f x y) | D22 => C D43 (f x y) | D23 => C D44 (f x y) | D24 => C D45 (f x y) | D25 => C D46 (f x y) | D26 => C D47 (f x y) | D27 => C D48 (f x y) | D28 => C D49 (f x y) | D29 => C D50 (f x y) | D30 => C D51 (f x y) | D31 => C D52 (f x y) | D32 => C D53 (f x y) | D33 => C D54 (f x y) | D34 => C D55 (f x y) | D35 => C D56 (f x y) | D36 => C D57 (f x y) | D37 => C D58 (f x y) | D38 => C D59 (f x y) | D39 => C D60 (f x y) | D40 => C D61 (f x y) | D41 => C D62 (f x y) | D42 => C D63 (f x y) | D43 => C D0 (g x y) | D44 => C D1 (g x y) | D45 => C D2 (g x y) | D46 => C D3 (g x y) | D47 => C D4 (g x y) | D48 => C D5 (g x y) | D49 => C D6 (g x y) | D50 => C D7 (g x y) | D51 => C D8 (g x y) | D52 => C D9 (g x y) | D53 => C D10 (g x y) | D54 => C D11 (g x y) | D55 => C D12 (g x y) | D56 => C D13 (g x y) | D57 => C D14 (g x y) | D58 => C D15 (g x y) | D59 => C D16 (g x y) | D60 => C D17 (g x y) | D61 => C D18 (g x y) | D62 => C D19 (g x y) | D63 => C D20 (g x y) end
    | D21 => match e with | D0 => C D22 (f x y) | D1 => C D23 (f x y) | D2 => C D24 (f x y) | D3 => C D25 (f x y) | D4 => C D26 (f x y) | D5 => C D27 (f x y) | D6 => C D28 (f x y) | D7 => C D29 (f x y) | D8 => C D30 (f x y) | D9 => C D31 (f x y) | D10 => C D32 (f x y) | D11 => C D33 (f x y) | D12 => C D34 (f x y) | D13 => C D35 (f x y) | D14 => C D36 (f x y) | D15 => C D37 (f x y) | D16 => C D38 (f x y) | D17 => C D39 (f x y) | D18 => C D40 (f x y) | D19 => C D41 (f x y) | D20 => C D42 (f x y) | D21 => C D43 (f x y) | D22 => C D44 (f x y) | D23 => C D45 (f x y) | D24 => C D46 (f x y) | D25 => C D47 (f x y) | D26 => C D48 (f x y) | D27 => C D49 (f x y) | D28 => C D50 (f x y) | D29 => C D51 (f x y) | D30 => C D52 (f x y) | D31 => C D53 (f x y) | D32 => C D54 (f x y) | D33 => C D55 (f x y) | D34 => C D56 (f x y) | D35 => C D57 (f x y) | D36 => C D58 (f x y) | D37 => C D59 (f x y) | D38 => C D60 (f x y) | D39 => C D61 (f x y) | D40 => C D62 (f x y) | D41 => C D63 (f x y) | D42 => C D0 (g x y) | D43 => C D1 (g x y) | D44 => C D2 (g x y) | D45 => C D3 (g x y) | D46 => C D4 (g x y) | D47 => C D5 (g x y) | D48 => C D6 (g x y) | D49 => C D7 (g x y) | D50 => C D8 (g x y) | D51 => C D9 (g x y) | D52 => C D10 (g x y) | D53 => C D11 (g x y) | D54 => C D12 (g x y) | D55 => C D13 (g x y) | D56 => C D14 (g x y) | D57 => C D15 (g x y) | D58 => C D16 (g x y) | D59 => C D17 (g x y) | D60 => C D18 (g x y) | D61 => C D19 (g x y) | D62 => C D20 (g x y) | D63 => C D21 (g x y) end
    | D22 => match e with | D0 => C D23 (f x y) | D1 => C D24 (f x y) | D2 => C D25 (f x y) | D3 => C D26 (f x y) | D4 => C D27 (f x y) | D5 => C D28 (f x y) | D6 => C D29 (f x y) | D7 => C D30 (f x y) | D8 => C D31 (f x y) | D9 => C D32 (f x y) | D10 => C D33 (f x y) | D11 => C D34 (f x y) | D12 => C D35 (f x y) | D13 => C D36 (f x y) | D14 => C D37 (f x y) | D15 => C D38 (f x y) | D16 => C D39 (f x y) | D17 => C D40 (f x y) | D18 => C D41 (f x y) | D19 => C D42 (f x y) | D20 => C D43 (f x y) | D21 => C D44 (f x y) | D22 => C D45 (f x y) | D23 => C D46 (f x y) | D24 => C D47 (f x y) | D25 => C D48 (f x y) | D26 => C D49 (f x y) | D27 => C D50 (f x y) | D28 => C D51 (f x y) | D29 => C D52 (f x y) | D30 => C D53 (f x y) | D31 => C D54 (f x y) | D32 => C D55 (f x y) | D33 => C D56 (f x y) | D34 => C D57 (f x y) | D35 => C D58 (f x y) | D36 => C D59 (f x y) | D37 => C D60 (f x y) | D38 => C D61 (f x y) | D39 => C D62 (f x y) | D40 => C D63 (f x y) | D41 => C D0 (g x y) | D42 => C D1 (g x y) | D43 => C D2 (g x y) | D44 => C D3 (g x y) | D45 => C D4 (g x y) | D46 => C D5 (g x y) | D47 => C D6 (g x y) | D48 => C D7 (g x y) | D49 => C D8 (g x y) | D50 => C D9 (g x y) | D51 => C D10 (g x y) | D52 => C D11 (g x y) | D53 => C D12 (g x y) | D54 => C D13 (g x y) | D55 => C D14 (g x y) | D56 => C D15 (g x y) | D57 => C D16 (g x y) | D58 => C D17 (g x y) | D59 => C D18 (g x y) | D60 => C D19 (g x y) | D61 => C D20 (g x y) | D62 => C D21 (g x y) | D63 => C D22 (g x y) end
    | D23 => match e with | D0 => C D24 (f x y) | D1 => C D25 (f x y) | D2 => C D26 (f x y) | D3 => C D27 (f x y) | D4 => C D28 (f x y) | D5 => C D29 (f x y) | D6 => C D30 (f x y) | D7 => C D31 (f x y) | D8 => C D32 (f x y) | D9 => C D33 (f x y) | D10 => C D34 (f x y) | D11 => C D35 (f x y) | D12 => C D36 (f x y) | D13 => C D37 (f x y) | D14 => C D38 (f x y) | D15 => C D39 (f x y) | D16 => C D40 (f x y) | D17 => C D41 (f x y) | D18 => C D42 (f x y) | D19 => C D43 (f x y) | D20 => C D44 (f x y) | D21 => C D45 (f x y) | D22 => C D46 (f x y) | D23 => C D47 (f x y) | D24 => C D48 (f x y) | D25 => C D49 (f x y) | D26 => C D50 (f x y) | D27 => C D51 (f x y) | D28 => C D52 (f x y) | D29 => C D53 (f x y) | D30 => C D54 (f x y) | D31 => C D55 (f x y) | D32 => C D56 (f x y) | D33 => C D57 (f x y) | D34 => C D58 (f x y) | D35 => C D59 (f x y) | D36 => C D60 (f x y) | D37 => C D61 (f x y) | D38 => C D62 (f x y) | D39 => C D63 (f x y) | D40 => C D0 (g x y) | D41 => C D1 (g x y) | D42 => C D2 (g x y) | D43 => C D3 (g x y) | D44 => C D4 (g x y) | D45 => C D5 (g x y) | D46 => C D6 (g x y) | D47 => C D7 (g x y) | D48 => C D8 (g x y) | D49 => C D9 (g x y) | D50 => C D10 (g x y) | D51 => C D11 (g x y) | D52 => C D12 (g x y) | D53 => C D13 (g x y) | D54 => C D14 (g x y) | D55 => C D15 (g x y) | D56 => C D16 (g x y) | D57 => C D17 (g x y) | D58 => C D18 (g x y) | D59 => C D19 (g x y) | D60 => C D20 (g x y) | D61 => C D21 (g x y) | D62 => C D22 (g x y) | D63 => C D23 (g x y) end
    | D24 => match e with | D0 => C D25 (f x y) | D1 => C D26 (f x y) | D2 => C D27 (f x y) | D3 => C D28 (f x y) | D4 => C D29 (f x y) | D5 => C D30 (f x y) | D6 => C D31 (f x y) | D7 => C D32 (f x y) | D8 => C D33 (f x y) | D9 => C D34 (f x y) | D10 => C D35 (f x y) | D11 => C D36 (f x y) | D12 => C D37 (f x y) | D13 => C D38 (f x y) | D14 => C D39 (f x y) | D15 => C D40 (f x y) | D16 => C D41 (f x y) | D17 => C D42 (f x y) | D18 => C D43 (f x y) | D19 => C D44 (f x y) | D20 => C D45 (f x y) | D21 => C D46 (f x y) | D22 => C D47 (f x y) | D23 => C D48 (f x y) | D24 => C D49 (f x y) | D25 => C D50 (f x y) | D26 => C D51 (f x y) | D27 => C D52 (f x y) | D28 => C D53 (f x y) | D29 => C D54 (f x y) | D30 => C D55 (f x y) | D31 => C D56 (f x y) | D32 => C D57 (f x y) | D33 => C D58 (f x y) | D34 => C D59 (f x y) | D35 => C D60 (f x y) | D36 => C D61 (f x y) | D37 => C D62 (f x y) | D38 => C D63 (f x y) | D39 => C D0 (g x y) | D40 => C D1 (g x y) | D41 => C D2 (g x y) | D42 => C D3 (g x y) | D43 => C D4 (g x y) | D44 => C D5 (g x y) | D45 => C D6 (g x y) | D46 => C D7 (g x y) | D47 => C D8 (g x y) | D48 => C D9 (g x y) | D49 => C D10 (g x y) | D50 => C D11 (g x y) | D51 => C D12 (g x y) | D52 => C D13 (g x y) | D53 => C D14 (g x y) | D54 => C D15 (g x y) | D55 => C D16 (g x y) | D56 => C D17 (g x y) | D57 => C D18 (g x y) | D58 => C D19 (g x y) | D59 => C D20 (g x y) | D60 => C D21 (g x y) | D61 => C D22 (g x y) | D62 => C D23 (g x y) | D63 => C D24 (g x y) end
    | D25 => match e with | D0 => C D26 (f x y) | D1 => C D27 (f x y) | D2 => C D28 (f x y) | D3 => C D29 (f x y) | D4 => C D30 (f x y) | D5 => C D31 (f x y) | D6 => C D32 (f x y) | D7 => C D33 (f x y) | D8 => C D34 (f x y) | D9 => C D35 (f x y) | D10 => C D36 (f x y) | D11 => C D37 (f x y) | D12 => C D38 (f x y) | D13 => C D39 (f x y) | D14 => C D40 (f x y) | D15 => C D41 (f x y) | D16 => C D42 (f x y) | D17 => C D43 (f x y) | D18 => C D44 (f x y) | D19 => C D45 (f x y) | D20 => C D46 (f x y) | D21 => C D47 (f x y) | D22 => C D48 (f x y) | D23 => C D49 (f x y) | D24 => C D50 (f x y) | D25 => C D51 (f x y) | D26 => C D52 (f x y) | D27 => C D53 (f x y) | D28 => C D54 (f x y) | D29 => C D55 (f x y) | D30 => C D56 (f x y) | D31 => C D57 (f x y) | D32 => C D58 (f x y) | D33 => C D59 (f x y) | D34 => C D60 (f x y) | D35 => C D61 (f x y) | D36 => C D62 (f x y) | D37 => C D63 (f x y) | D38 => C D0 (g x y) | D39 => C D1 (g x y) | D40 => C D2 (g x y) | D41 => C D3 (g x y) | D42 => C D4 (g x y) | D43 => C D5 (g x y) | D44 => C D6 (g x y) | D45 => C D7 (g x y) | D46 => C D8 (g x y) | D47 => C D9 (g x y) | D48 => C D10 (g x y) | D49 => C D11 (g x y) | D50 => C D12 (g x y) | D51 => C D13 (g x y) | D52 => C D14 (g x y) | D53 => C D15 (g x y) | D54 => C D16 (g x y) | D55 => C D17 (g x y) | D56 => C D18 (g x y) | D57 => C D19 (g x y) | D58 => C D20 (g x y) | D59 => C D21 (g x y) | D60 => C D22 (g x y) | D61 => C D23 (g x y) | D62 => C D24 (g x y) | D63 => C D25 (g x y) end
    | D26 => match e with | D0 => C D27 (f x y) | D1 => C D28 (f x y) | D2 => C D29 (f x y) | D3 => C D30 (f x y) | D4 => C D31 (f x y) | D5 => C D32 (f x y) | D6 => C D33 (f x y) | D7 => C D34 (f x y) | D8 => C D35 (f x y) | D9 => C D36 (f x y) | D10 => C D37 (f x y) | D11 => C D38 (f x y) | D12 => C D39 (f x y) | D13 => C D40 (f x y) | D14 => C D41 (f x y) | D15 => C D42 (f x y) | D16 => C D43 (f x y) | D17 => C D44 (f x y) | D18 => C D45 (f x y) | D19 => C D46 (f x y) | D20 => C D47 (f x y) | D21 => C D48 (f x y) | D22 => C D49 (f x y) | D23 => C D50 (f x y) | D24 => C D51 (f x y) | D25 => C D52 (f x y) | D26 => C D53 (f x y) | D27 => C D54 (f x y) | D28 => C D55 (f x y) | D29 => C D56 (f x y) | D30 => C D57 (f x y) | D31 => C D58 (f x y) | D32 => C D59 (f x y) | D33 => C D60 (f x y) | D34 => C D61 (f x y) | D35 => C D62 (f x y) | D36 => C D63 (f x y) | D37 => C D0 (g x y) | D38 => C D1 (g x y) | D39 => C D2 (g x y) | D40 => C D3 (g x y) | D41 => C D4 (g x y) | D42 => C D5 (g x y) | D43 => C D6 (g x y) | D44 => C D7 (g x y) | D45 => C D8 (g x y) | D46 => C D9 (g x y) | D47 => C D10 (g x y) | D48 => C D11 (g x y) | D49 => C D12 (g x y) | D50 => C D13 (g x y) | D51 => C D14 (g x y) | D52 => C D15 (g x y) | D53 => C D16 (g x y) | D54 => C D17 (g x y) | D55 => C D18 (g x y) | D56 => C D19 (g x y) | D57 => C D20 (g x y) | D58 => C D21 (g x y) | D59 => C D22 (g x y) | D60 => C D23 (g x y) | D61 => C D24 (g x y) | D62 => C D25 (g x y) | D63 => C D26 (g x y) end
    | D27 => match e with | D0 => C D28 (f x y) | D1 => C D29 (f x y) | D2 => C D30 (f x y) | D3 => C D31 (f x y) | D4 => C D32 (f x y) | D5 => C D33 (f x y) | D6 => C D34 (f x y) | D7 => C D35 (f x y) | D8 => C D36 (f x y) | D9 => C D37 (f x y) | D10 => C D38 (f x y) | D11 => C D39 (f x y) | D12 => C D40 (f x y) | D13 => C D41 (f x y) | D14 => C D42 (f x y) | D15 => C D43 (f x y) | D16 => C D44 (f x y) | D17 => C D45 (f x y) | D18 => C D46 (f x y) | D19 => C D47 (f x y) | D20 => C D48 (f x y) | D21 => C D49 (f x y) | D22 => C D50 (f x y) | D23 => C D51 (f x y) | D24 => C D52 (f x y) | D25 => C D53 (f x y) | D26 => C D54 (f x y) | D27 => C D55 (f x y) | D28 => C D56 (f x y) | D29 => C D57 (f x y) | D30 => C D58 (f x y) | D31 => C D59 (f x y) | D32 => C D60 (f x y) | D33 => C D61 (f x y) | D34 => C D62 (f x y) | D35 => C D63 (f x y) | D36 => C D0 (g x y) | D37 => C D1 (g x y) | D38 => C D2 (g x y) | D39 => C D3 (g x y) | D40 => C D4 (g x y) | D41 => C D5 (g x y) | D42 => C D6 (g x y) | D43 => C D7 (g x y) | D44 => C D8 (g x y) | D45 => C D9 (g x y) | D46 => C D10 (g x y) | D47 => C D11 (g x y) | D48 => C D12 (g x y) | D49 => C D13 (g x y) | D50 => C D14 (g x y) | D51 => C D15 (g x y) | D52 => C D16 (g x y) | D53 => C D17 (g x y) | D54 => C D18 (g x y) | D55 => C D19 (g x y) | D56 => C D20 (g x y) | D57 => C D21 (g x y) | D58 => C D22 (g x y) | D59 => C D23 (g x y) | D60 => C D24 (g x y) | D61 => C D25 (g x y) | D62 => C D26 (g x y) | D63 => C D27 (g x y) end
    | D28 => match e with | D0 => C D29 (f x y) | D1 => C D30 (f x y) | D2 => C D31 (f x y) | D3 => C D32 (f x y) | D4 => C D33 (f x y) | D5 => C D34 (f x y) | D6 => C D35 (f x y) | D7 => C D36 (f x y) | D8 => C D37 (f x y) | D9 => C D38 (f x y) | D10 => C D39 (f x y) | D11 => C D40 (f x y) | D12 => C D41 (f x y) | D13 => C D42 (f x y) | D14 => C D43 (f x y) | D15 => C D44 (f x y) | D16 => C D45 (f x y) | D17 => C D46 (f x y) | D18 => C D47 (f x y) | D19 => C D48 (f x y) | D20 => C D49 (f x y) | D21 => C D50 (f x y) | D22 => C D51 (f x y) | D23 => C D52 (f x y) | D24 => C D53 (f x y) | D25 => C D54 (f x y) | D26 => C D55 (f x y) | D27 => C D56 (f x y) | D28 => C D57 (f x y) | D29 => C D58 (f x y) | D30 => C D59 (f x y) | D31 => C D60 (f x y) | D32 => C D61 (f x y) | D33 => C D62 (f x y) | D34 => C D63 (f x y) | D35 => C D0 (g x y) | D36 => C D1 (g x y) | D37 => C D2 (g x y) | D38 => C D3 (g x y) | D39 => C D4 (g x y) | D40 => C D5 (g x y) | D41 => C D6 (g x y) | D42 => C D7 (g x y) | D43 => C D8 (g x y) | D44 => C D9 (g x y) | D45 => C D10 (g x y) | D46 => C D11 (g x y) | D47 => C D12 (g x y) | D48 => C D13 (g x y) | D49 => C D14 (g x y) | D50 => C D15 (g x y) | D51 => C D16 (g x y) | D52 => C D17 (g x y) | D53 => C D18 (g x y) | D54 => C D19 (g x y) | D55 => C D20 (g x y) | D56 => C D21 (g x y) | D57 => C D22 (g x y) | D58 => C D23 (g x y) | D59 => C D24 (g x y) | D60 => C D25 (g x y) | D61 => C D26 (g x y) | D62 => C D27 (g x y) | D63 => C D28 (g x y) end
    | D29 => match e with | D0 => C D30 (f x y) | D1 => C D31 (f x y) | D2 => C D32 (f x y) | D3 => C D33 (f x y) | D4 => C D34 (f x y) | D5 => C D35 (f x y) | D6 => C D36 (f x y) | D7 => C D37 (f x y) | D8 => C D38 (f x y) | D9 => C D39 (f x y) | D10 => C D40 (f x y) | D11 => C D41 (f x y) | D12 => C D42 (f x y) | D13 => C D43 (f x y) | D14 => C D44 (f x y) | D15 => C D45 (f x y) | D16 => C D46 (f x y) | D17 => C D47 (f x y) | D18 => C D48 (f x y) | D19 => C D49 (f x y) | D20 => C D50 (f x y) | D21 => C D51 (f x y) | D22 => C D52 (f x y) | D23 => C D53 (f x y) | D24 => C D54 (f x y) | D25 => C D55 (f x y) | D26 => C D56 (f x y) | D27 => C D57 (f x y) | D28 => C D58 (f x y) | D29 => C D59 (f x y) | D30 => C D60 (f x y) | D31 => C D61 (f x y) | D32 => C D62 (f x y) | D33 => C D63 (f x y) | D34 => C D0 (g x y) | D35 => C D1 (g x y) | D36 => C D2 (g x y) | D37 => C D3 (g x y) | D38 => C D4 (g x y) | D39 => C D5 (g x y) | D40 => C D6 (g x y) | D41 => C D7 (g x y) | D42 => C D8 (g x y) | D43 => C D9 (g x y) | D44 => C D10 (g x y) | D45 => C D11 (g x y) | D46 => C D12 (g x y) | D47 => C D13 (g x y) | D48 => C D14 (g x y) | D49 => C D15 (g x y) | D50 => C D16 (g x y) | D51 => C D17 (g x y) | D52 => C D18 (g x y) | D53 => C D19 (g x y) | D54 => C D20 (g x y) | D55 => C D21 (g x y) | D56 => C D22 (g x y) | D57 => C D23 (g x y) | D58 => C D24 (g x y) | D59 => C D25 (g x y) | D60 => C D26 (g x y) | D61 => C D27 (g x y) | D62 => C D28 (g x y) | D63 => C D29 (g x y) end
    | D30 => match e with | D0 => C D31 (f x y) | D1 => C D32 (f x y) | D2 => C D33 (f x y) | D3 => C D34 (f x y) | D4 => C D35 (f x y) | D5 => C D36 (f x y) | D6 => C D37 (f x y) | D7 => C D38 (f x y) | D8 => C D39 (f x y) | D9 => C D40 (f x y) | D10 => C D41 (f x y) | D11 => C D42 (f x y) | D12 => C D43 (f x y) | D13 => C D44 (f x y) | D14 => C D45 (f x y) | D15 => C D46 (f x y) | D16 => C D47 (f x y) | D17 => C D48 (f x y) | D18 => C D49 (f x y) | D19 => C D50 (f x y) | D20 => C D51 (f x y) | D21 => C D52 (f x y) | D22 => C D53 (f x y) | D23 => C D54 (f x y) | D24 => C D55 (f x y) | D25 => C D56 (f x y) | D26 => C D57 (f x y) | D27 => C D58 (f x y) | D28 => C D59 (f x y) | D29 => C D60 (f x y) | D30 => C D61 (f x y) | D31 => C D62 (f x y) | D32 => C D63 (f x y) | D33 => C D0 (g x y) | D34 => C D1 (g x y) | D35 => C D2 (g x y) | D36 => C D3 (g x y) | D37 => C D4 (g x y) | D38 => C D5 (g x y) | D39 => C D6 (g x y) | D40 => C D7 (g x y) | D41 => C D8 (g x y) | D42 => C D9 (g x y) | D43 => C D10 (g x y) | D44 => C D11 (g x y) | D45 => C D12 (g x y) | D46 => C D13 (g x y) | D47 => C D14 (g x y) | D48 => C D15 (g x y) | D49 => C D16 (g x y) | D50 => C D17 (g x y) | D51 => C D18 (g x y) | D52 => C D19 (g x y) | D53 => C D20 (g x y) | D54 => C D21 (g x y) | D55 => C D22 (g x y) | D56 => C D23 (g x y) | D57 => C D24 (g x y) | D58 => C D25 (g x y) | D59 => C D26 (g x y) | D60 => C D27 (g x y) | D61 => C D28 (g x y) | D62 => C D29 (g x y) | D63 => C D30 (g x y) end
    | D31 => match e with | D0 => C D32 (f x y) | D1 => C D33 (f x y) | D2 => C D34 (f x y) | D3 => C D35 (f x y) | D4 => C D36 (f x y) | D5 => C D37 (f x y) | D6 => C D38 (f x y) | D7 => C D39 (f x y) | D8 => C D40 (f x y) | D9 => C D41 (f x y) | D10 => C D42 (f x y) | D11 => C D43 (f x y) | D12 => C D44 (f x y) | D13 => C D45 (f x y) | D14 => C D46 (f x y) | D15 => C D47 (f x y) | D16 => C D48 (f x y) | D17 => C D49 (f x y) | D18 => C D50 (f x y) | D19 => C D51 (f x y) | D20 => C D52 (f x y) | D21 => C D53 (f x y) | D22 => C D54 (f x y) | D23 => C D55 (f x y) | D24 => C D56 (f x y) | D25 => C D57 (f x y) | D26 => C D58 (f x y) | D27 => C D59 (f x y) | D28 => C D60 (f x y) | D29 => C D61 (f x y) | D30 => C D62 (f x y) | D31 => C D63 (f x y) | D32 => C D0 (g x y) | D33 => C D1 (g x y) | D34 => C D2 (g x y) | D35 => C D3 (g x y) | D36 => C D4 (g x y) | D37 => C D5 (g x y) | D38 => C D6 (g x y) | D39 => C D7 (g x y) | D40 => C D8 (g x y) | D41 => C D9 (g x y) | D42 => C D10 (g x y) | D43 => C D11 (g x y) | D44 => C D12 (g x y) | D45 => C D13 (g x y) | D46 => C D14 (g x y) | D47 => C D15 (g x y) | D48 => C D16 (g x y) | D49 => C D17 (g x y) | D50 => C D18 (g x y) | D51 => C D19 (g x y) | D52 => C D20 (g x y) | D53 => C D21 (g x y) | D54 => C D22 (g x y) | D55 => C D23 (g x y) | D56 => C D24 (g x y) | D57 => C D25 (g x y) | D58 => C D26 (g x y) | D59 => C D27 (g x y) | D60 => C D28 (g x y) | D61 => C D29 (g x y) | D62 => C D30 (g x y) | D63 => C D31 (g x y) end
    | D32 => match e with | D0 => C D33 (f x y) | D1 => C D34 (f x y) | D2 => C D35 (f x y) | D3 => C D36 (f x y) | D4 => C D37 (f x y) | D5 => C D38 (f x y) | D6 => C D39 (f x y) | D7 => C D40 (f x y) | D8 => C D41 (f x y) | D9 => C D42 (f x y) | D10 => C D43 (f x y) | D11 => C D44 (f x y) | D12 => C D45 (f x y) | D13 => C D46 (f x y) | D14 => C D47 (f x y) | D15 => C D48 (f x y) | D16 => C D49 (f x y) | D17 => C D50 (f x y) | D18 => C D51 (f x y) | D19 => C D52 (f x y) | D20 => C D53 (f x y) | D21 => C D54 (f x y) | D22 => C D55 (f x y) | D23 => C D56 (f x y) | D24 => C D57 (f x y) | D25 => C D58 (f x y) | D26 => C D59 (f x y) | D27 => C D60 (f x y) | D28 => C D61 (f x y) | D29 => C D62 (f x y) | D30 => C D63 (f x y) | D31 => C D0 (g x y) | D32 => C D1 (g x y) | D33 => C D2 (g x y) | D34 => C D3 (g x y) | D35 => C D4 (g x y) | D36 => C D5 (g x y) | D37 => C D6 (g x y) | D38 => C D7 (g x y) | D39 => C D8 (g x y) | D40 => C D9 (g x y) | D41 => C D10 (g x y) | D42 => C D11 (g x y) | D43 => C D12 (g x y) | D44 => C D13 (g x y) | D45 => C D14 (g x y) | D46 => C D15 (g x y) | D47 => C D16 (g x y) | D48 => C D17 (g x y) | D49 => C D18 (g x y) | D50 => C D19 (g x y) | D51 => C D20 (g x y) | D52 => C D21 (g x y) | D53 => C D22 (g x y) | D54 => C D23 (g x y) | D55 => C D24 (g x y) | D56 => C D25 (g x y) | D57 => C D26 (g x y) | D58 => C D27 (g x y) | D59 => C D28 (g x y) | D60 => C D29 (g x y) | D61 => C D30 (g x y) | D62 => C D31 (g x y) | D63 => C D32 (g x y) end
    | D33 => match e with | D0 => C D34 (f x y) | D1 => C D35 (f x y) | D2 => C D36 (f x y) | D3 => C D37 (f x y) | D4 => C D38 (f x y) | D5 => C D39 (f x y) | D6 => C D40 (f x y) | D7 => C D41 (f x y) | D8 => C D42 (f x y) | D9 => C D43 (f x y) | D10 => C D44 (f x y) | D11 => C D45 (f x y) | D12 => C D46 (f x y) | D13 => C D47 (f x y) | D14 => C D48 (f x y) | D15 => C D49 (f x y) | D16 => C D50 (f x y) | D17 => C D51 (f x y) | D18 => C D52 (f x y) | D19 => C D53 (f x y) | D20 => C D54 (f x y) | D21 => C D55 (f x y) | D22 => C D56 (f x y) | D23 => C D57 (f x y) | D24 => C D58 (f x y) | D25 => C D59 (f x y) | D26 => C D60 (f x y) | D27 => C D61 (f x y) | D28 => C D62 (f x y) | D29 => C D63 (f x y) | D30 => C D0 (g x y) | D31 => C D1 (g x y) | D32 => C D2 (g x y) | D33 => C D3 (g x y) | D34 => C D4 (g x y) | D35 => C D5 (g x y) | D36 => C D6 (g x y) | D37 => C D7 (g x y) | D38 => C D8 (g x y) | D39 => C D9 (g x y) | D40 => C D10 (g x y) | D41 => C D11 (g x y) | D42 => C D12 (g x y) | D43 => C D13 (g x y) | D44 => C D14 (g x y) | D45 => C D15 (g x y) | D46 => C D16 (g x y) | D47 => C D17 (g x y) | D48 => C D18 (g x y) | D49 => C D19 (g x y) | D50 => C D20 (g x y) | D51 => C D21 (g x y) | D52 => C D22 (g x y) | D53 => C D23 (g x y) | D54 => C D24 (g x y) | D55 => C D25 (g x y) | D56 => C D26 (g x y) | D57 => C D27 (g x y) | D58 => C D28 (g x y) | D59 => C D29 (g x y) | D60 => C D30 (g x y) | D61 => C D31 (g x y) | D62 => C D32 (g x y) | D63 => C D33 (g x y) end
    | D34 => match e with | D0 => C D35 (f x y) | D1 => C D36 (f x y) | D2 => C D37 (f x y) | D3 => C D38 (f x y) | D4 => C D39 (f x y) | D5 => C D40 (f x y) | D6 => C D41 (f x y) | D7 => C D42 (f x y) | D8 => C D43 (f x y) | D9 => C D44 (f x y) | D10 => C D45 (f x y) | D11 => C D46 (f x y) | D12 => C D47 (f x y) | D13 => C D48 (f x y) | D14 => C D49 (f x y) | D15 => C D50 (f x y) | D16 => C D51 (f x y) | D17 => C D52 (f x y) | D18 => C D53 (f x y) | D19 => C D54 (f x y) | D20 => C D55 (f x y) | D21 => C D56 (f x y) | D22 => C D57 (f x y) | D23 => C D58 (f x y) | D24 => C D59 (f x y) | D25 => C D60 (f x y) | D26 => C D61 (f x y) | D27 => C D62 (f x y) | D28 => C D63 (f x y) | D29 => C D0 (g x y) | D30 => C D1 (g x y) | D31 => C D2 (g x y) | D32 => C D3 (g x y) | D33 => C D4 (g x y) | D34 => C D5 (g x y) | D35 => C D6 (g x y) | D36 => C D7 (g x y) | D37 => C D8 (g x y) | D38 => C D9 (g x y) | D39 => C D10 (g x y) | D40 => C D11 (g x y) | D41 => C D12 (g x y) | D42 => C D13 (g x y) | D43 => C D14 (g x y) | D44 => C D15 (g x y) | D45 => C D16 (g x y) | D46 => C D17 (g x y) | D47 => C D18 (g x y) | D48 => C D19 (g x y) | D49 => C D20 (g x y) | D50 => C D21 (g x y) | D51 => C D22 (g x y) | D52 => C D23 (g x y) | D53 => C D24 (g x y) | D54 => C D25 (g x y) | D55 => C D26 (g x y) | D56 => C D27 (g x y) | D57 => C D28 (g x y) | D58 => C D29 (g x y) | D59 => C D30 (g x y) | D60 => C D31 (g x y) | D61 => C D32 (g x y) | D62 => C D33 (g x y) | D63 => C D34 (g x y) end
    | D35 => match e with | D0 => C D36 (f x y) | D1 => C D37 (f x y) | D2 => C D38 (f x y) | D3 => C D39 (f x y) | D4 => C D40 (f x y) | D5 => C D41 (f x y) | D6 => C D42 (f x y) | D7 => C D43 (f x y) | D8 => C D44 (f x y) | D9 => C D45 (f x y) | D10 => C D46 (f x y) | D11 => C D47 (f x y) | D12 => C D48 (f x y) | D13 => C D49 (f x y) | D14 => C D50 (f x y) | D15 => C D51 (f x y) | D16 => C D52 (f x y) | D17 => C D53 (f x y) | D18 => C D54 (f x y) | D19 => C D55 (f x y) | D20 => C D56 (f x y) | D21 => C D57 (f x y) | D22 => C D58 (f x y) | D23 => C D59 (f x y) | D24 => C D60 (f x y) | D25 => C D61 (f x y) | D26 => C D62 (f x y) | D27 => C D63 (f x y) | D28 => C D0 (g x y) | D29 => C D1 (g x y) | D30 => C D2 (g x y) | D31 => C D3 (g x y) | D32 => C D4 (g x y) | D33 => C D5 (g x y) | D34 => C D6 (g x y) | D35 => C D7 (g x y) | D36 => C D8 (g x y) | D37 => C D9 (g x y) | D38 => C D10 (g x y) | D39 => C D11 (g x y) | D40 => C D12 (g x y) | D41 => C D13 (g x y) | D42 => C D14 (g x y) | D43 => C D15 (g x y) | D44 => C D16 (g x y) | D45 => C D17 (g x y) | D46 => C D18 (g x y) | D47 => C D19 (g x y) | D48 => C D20 (g x y) | D49 => C D21 (g x y) | D50 => C D22 (g x y) | D51 => C D23 (g x y) | D52 => C D24 (g x y) | D53 => C D25 (g x y) | D54 => C D26 (g x y) | D55 => C D27 (g x y) | D56 => C D28 (g x y) | D57 => C D29 (g x y) | D58 => C D30 (g x y) | D59 => C D31 (g x y) | D60 => C D32 (g x y) | D61 => C D33 (g x y) | D62 => C D34 (g x y) | D63 => C D35 (g x y) end
    | D36 => match e with | D0 => C D37 (f x y) | D1 => C D38 (f x y) | D2 => C D39 (f x y) | D3 => C D40 (f x y) | D4 => C D41 (f x y) | D5 => C D42 (f x y) | D6 => C D43 (f x y) | D7 => C D44 (f x y) | D8 => C D45 (f x y) | D9 => C D46 (f x y) | D10 => C D47 (f x y) | D11 => C D48 (f x y) | D12 => C D49 (f x y) | D13 => C D50 (f x y) | D14 => C D51 (f x y) | D15 => C D52 (f x y) | D16 => C D53 (f x y) | D17 => C D54 (f x y) | D18 => C D55 (f x y) | D19 => C D56 (f x y) | D20 => C D57 (f x y) | D21 => C D58 (f x y) | D22 => C D59 (f x y) | D23 => C D60 (f x y) | D24 => C D61 (f x y) | D25 => C D62 (f x y) | D26 => C D63 (f x y) | D27 => C D0 (g x y) | D28 => C D1 (g x y) | D29 => C D2 (g x y) | D30 => C D3 (g x y) | D31 => C D4 (g x y) | D32 => C D5 (g x y) | D33 => C D6 (g x y) | D34 => C D7 (g x y) | D35 => C D8 (g x y) | D36 => C D9 (g x y) | D37 => C D10 (g x y) | D38 => C D11 (g x y) | D39 => C D12 (g x y) | D40 => C D13 (g x y) | D41 => C D14 (g x y) | D42 => C D15 (g x y) | D43 => C D16 (g x y) | D44 => C D17 (g x y) | D45 => C D18 (g x y) | D46 => C D19 (g x y) | D47 => C D20 (g x y) | D48 => C D21 (g x y) | D49 => C D22 (g x y) | D50 => C D23 (g x y) | D51 => C D24 (g x y) | D52 => C D25 (g x y) | D53 => C D26 (g x y) | D54 => C D27 (g x y) | D55 => C D28 (g x y) | D56 => C D29 (g x y) | D57 => C D30 (g x y) | D58 => C D31 (g x y) | D59 => C D32 (g x y) | D60 => C D33 (g x y) | D61 => C D34 (g x y) | D62 => C D35 (g x y) | D63 => C D36 (g x y) end
    | D37 => match e with | D0 => C D38 (f x y) | D1 => C D39 (f x y) | D2 => C D40 (f x y) | D3 => C D41 (f x y) | D4 => C D42 (f x y) | D5 => C D43 (f x y) | D6 => C D44 (f x y) | D7 => C D45 (f x y) | D8 => C D46 (f x y) | D9 => C D47 (f x y) | D10 => C D48 (f x y) | D11 => C D49 (f x y) | D12 => C D50 (f x y) | D13 => C D51 (f x y) | D14 => C D52 (f x y) | D15 => C D53 (f x y) | D16 => C D54 (f x y) | D17 => C D55 (f x y) | D18 => C D56 (f x y) | D19 => C D57 (f x y) | D20 => C D58 (f x y) | D21 => C D59 (f x y) | D22 => C D60 (f x y) | D23 => C D61 (f x y) | D24 => C D62 (f x y) | D25 => C D63 (f x y) | D26 => C D0 (g x y) | D27 => C D1 (g x y) | D28 => C D2 (g x y) | D29 => C D3 (g x y) | D30 => C D4 (g x y) | D31 => C D5 (g x y) | D32 => C D6 (g x y) | D33 => C D7 (g x y) | D34 => C D8 (g x y) | D35 => C D9 (g x y) | D36 => C D10 (g x y) | D37 => C D11 (g x y) | D38 => C D12 (g x y) | D39 => C D13 (g x y) | D40 => C D14 (g x y) | D41 => C D15 (g x y) | D42 => C D16 (g x y) | D43 => C D17 (g x y) | D44 => C D18 (g x y) | D45 => C D19 (g x y) | D46 => C D20 (g x y) | D47 => C D21 (g x y) | D48 => C D22 (g x y) | D49 => C D23 (g x y) | D50 => C D24 (g x y) | D51 => C D25 (g x y) | D52 => C D26 (g x y) | D53 => C D27 (g x y) | D54 => C D28 (g x y) | D55 => C D29 (g x y) | D56 => C D30 (g x y) | D57 => C D31 (g x y) | D58 => C D32 (g x y) | D59 => C D33 (g x y) | D60 => C D34 (g x y) | D61 => C D35 (g x y) | D62 => C D36 (g x y) | D63 => C D37 (g x y) end
    | D38 => match e with | D0 => C D39 (f x y) | D1 => C D40 (f x y) | D2 => C D41 (f x y) | D3 => C D42 (f x y) | D4 => C D43 (f x y) | D5 => C D44 (f x y) | D6 => C D45 (f x y) | D7 => C D46 (f x y) | D8 => C D47 (f x y) | D9 => C D48 (f x y) | D10 => C D49 (f x y) | D11 => C D50 (f x y) | D12 => C D51 (f x y) | D13 => C D52 (f x y) | D14 => C D53 (f x y) | D15 => C D54 (f x y) | D16 => C D55 (f x y) | D17 => C D56 (f x y) | D18 => C D57 (f x y) | D19 => C D58 (f x y) | D20 => C D59 (f x y) | D21 => C D60 (f x y) | D22 => C D61 (f x y) | D23 => C D62 (f x y) | D24 => C D63 (f x y) | D25 => C D0 (g x y) | D26 => C D1 (g x y) | D27 => C D2 (g x y) | D28 => C D3 (g x y) | D29 => C D4 (g x y) | D30 => C D5 (g x y) | D31 => C D6 (g x y) | D32 => C D7 (g x y) | D33 => C D8 (g x y) | D34 => C D9 (g x y) | D35 => C D10 (g x y) | D36 => C D11 (g x y) | D37 => C D12 (g x y) | D38 => C D13 (g x y) | D39 => C D14 (g x y) | D40 => C D15 (g x y) | D41 => C D16 (g x y) | D42 => C D17 (g x y) | D43 => C D18 (g x y) | D44 => C D19 (g x y) | D45 => C D20 (g x y) | D46 => C D21 (g x y) | D47 => C D22 (g x y) | D48 => C D23 (g x y) | D49 => C D24 (g x y) | D50 => C D25 (g x y) | D51 => C D26 (g x y) | D52 => C D27 (g x y) | D53 => C D28 (g x y) | D54 => C D29 (g x y) | D55 => C D30 (g x y) | D56 => C D31 (g x y) | D57 => C D32 (g x y) | D58 => C D33 (g x y) | D59 => C D34 (g x y) | D60 => C D35 (g x y) | D61 => C D36 (g x y) | D62 => C D37 (g x y) | D63 => C D38 (g x y) end
    | D39 => match e with | D0 => C D40 (f x y) | D1 => C D41 (f x y) | D2 => C D42 (f x y) | D3 => C D43 (f x y) | D4 => C D44 (f x y) | D5 => C D45 (f x y) | D6 => C D46 (f x y) | D7 => C D47 (f x y) | D8 => C D48 (f x y) | D9 => C D49 (f x y) | D10 => C D50 (f x y) | D11 => C D51 (f x y) | D12 => C D52 (f x y) | D13 => C D53 (f x y) | D14 => C D54 (f x y) | D15 => C D55 (f x y) | D16 => C D56 (f x y) | D17 => C D57 (f x y) | D18 => C D58 (f x y) | D19 => C D59 (f x y) | D20 => C D60 (f x y) | D21 => C D61 (f x y) | D22 => C D62 (f x y) | D23 => C D63 (f x y) | D24 => C D0 (g x y) | D25 => C D1 (g x y) | D26 => C D2 (g x y) | D27 => C D3 (g x y) | D28 => C D4 (g x y) | D29 => C D5 (g x y) | D30 => C D6 (g x y) | D31 => C D7 (g x y) | D32 => C D8 (g x y) | D33 => C D9 (g x y) | D34 => C D10 (g x y) | D35 => C D11 (g x y) | D36 => C D12 (g x y) | D37 => C D13 (g x y) | D38 => C D14 (g x y) | D39 => C D15 (g x y) | D40 => C D16 (g x y) | D41 => C D17 (g x y) | D42 => C D18 (g x y) | D43 => C D19 (g x y) | D44 => C D20 (g x y) | D45 => C D21 (g x y) | D46 => C D22 (g x y) | D47 => C D23 (g x y) | D48 => C D24 (g x y) | D49 => C D25 (g x y) | D50 => C D26 (g x y) | D51 => C D27 (g x y) | D52 => C D28 (g x y) | D53 => C D29 (g x y) | D54 => C D30 (g x y) | D55 => C D31 (g x y) | D56 => C D32 (g x y) | D57 => C D33 (g x y) | D58 => C D34 (g x y) | D59 => C D35 (g x y) | D60 => C D36 (g x y) | D61 => C D37 (g x y) | D62 => C D38 (g x y) | D63 => C D39 (g x y) end
    | D40 => match e with | D0 => C D41 (f x y) | D1 => C D42 (f x y) | D2 => C D43 (f x y) | D3 => C D44 (f x y) | D4 => C D45 (f x y) | D5 => C D46 (f x y) | D6 => C D47 (f x y) | D7 => C D48 (f x y) | D8 => C D49 (f x y) | D9 => C D50 (f x y) | D10 => C D51 (f x y) | D11 => C D52 (f x y) | D12 => C D53 (f x y) | D13 => C D54 (f x y) | D14 => C D55 (f x y) | D15 => C D56 (f x y) | D16 => C D57 (f x y) | D17 => C D58 (f x y) | D18 => C D59 (f x y) | D19 => C D60 (f x y) | D20 => C D61 (f x y) | D21 => C D62 (f x y) | D22 => C D63 (f x y) | D23 => C D0 (g x y) | D24 => C D1 (g x y) | D25 => C D2 (g x y) | D26 => C D3 (g x y) | D27 => C D4 (g x y) | D28 => C D5 (g x y) | D29 => C D6 (g x y) | D30 => C D7 (g x y) | D31 => C D8 (g x y) | D32 => C D9 (g x y) | D33 => C D10 (g x y) | D34 => C D11 (g x y) | D35 => C D12 (g x y) | D36 => C D13 (g x y) | D37 => C D14 (g x y) | D38 => C D15 (g x y) | D39 => C D16 (g x y) | D40 => C D17 (g x y) | D41 => C D18 (g x y) | D42 => C D19 (g x y) | D43 => C D20 (g x y) | D44 => C D21 (g x y) | D45 => C D22 (g x y) | D46 => C D23 (g x y) | D47 => C D24 (g x y) | D48 => C D25 (g x y) | D49 => C D26 (g x y) | D50 => C D27 (g x y) | D51 => C D28 (g x y) | D52 => C D29 (g x y) | D53 => C D30 (g x y) | D54 => C D31 (g x y) | D55 => C D32 (g x y) | D56 => C D33 (g x y) | D57 => C D34 (g x y) | D58 => C D35 (g x y) | D59 => C D36 (g x y) | D60 => C D37 (g x y) | D61 => C D38 (g x y) | D62 => C D39 (g x y) | D63 => C D40 (g x y) end
    | D41 => match e with | D0 => C D42 (f x y) | D1 => C D43 (f x y) | D2 => C D44 (f x y) | D3 => C D45 (f x y) | D4 => C D46 (f x y) | D5 => C D47 (f x y) | D6 => C D48 (f x y) | D7 => C D49 (f x y) | D8 => C D50 (f x y) | D9 => C D51 (f x y) | D10 => C D52 (f x y) | D11 => C D53 (f x y) | D12 => C D54 (f x y) | D13 => C D55 (f x y) | D14 => C D56 (f x y) | D15 => C D57 (f x y) | D16 => C D58 (f x y) | D17 => C D59 (f x y) | D18 => C D60 (f x y) | D19 => C D61 (f x y) | D20 => C D62 (f x y) | D21 => C D63 (f x y) | D22 => C D0 (g x y) | D23 => C D1 (g x y) | D24 => C D2 (g x y) | D25 => C D3 (g x y) | D26 => C D4 (g x y) | D27 => C D5 (g x y) | D28 => C D6 (g x y) | D29 => C D7 (g x y) | D30 => C D8 (g x y) | D31 => C D9 (g x y) | D32 => C D10 (g x y) | D33 => C D11 (g x y) | D34 => C D12 (g x y) | D35 => C D13 (g x y) | D36 => C D14 (g x y) | D37 => C D15 (g x y) | D38 => C D16 (g x y) | D39 => C D17 (g x y) | D40 => C D18 (g x y) | D41 => C D19 (g x y) | D42 => C D20 (g x y) | D43 => C D21 (g x y) | D44 => C D22 (g x y) | D45 => C D23 (g x y) | D46 => C D24 (g x y) | D47 => C D25 (g x y) | D48 => C D26 (g x y) | D49 => C D27 (g x y) | D50 => C D28 (g x y) | D51 => C D29 (g x y) | D52 => C D30 (g x y) | D53 => C D31 (g x y) | D54 => C D32 (g x y) | D55 => C D33 (g x y) | D56 => C D34 (g x y) | D57 => C D35 (g x y) | D58 => C D36 (g x y) | D59 => C D37 (g x y) | D60 => C D38 (g x y) | D61 => C D39 (g x y) | D62 => C D40 (g x y) | D63 => C D41 (g x y) end
    | D42 => match e with | D0 => C D43 (f x y) | D1 => C D44 (f x y) | D2 => C D45 (f x y) | D3 => C D46 (f x y) | D4 => C D47 (f x y) | D5 => C D48 (f x y) | D6 => C D49 (f x y) | D7 => C D50 (f x y) | D8 => C D51 (f x y) | D9 => C D52 (f x y) | D10 => C D53 (f x y) | D11 => C D54 (f x y) | D12 => C D55 (f x y) | D13 => C D56 (f x y) | D14 => C D57 (f x y) | D15 => C D58 (f x y) | D16 => C D59 (f x y) | D17 => C D60 (f x y) | D18 => C D61 (f x y) | D19 => C D62 (f x y) | D20 => C D63 (f x y) | D21 => C D0 (g x y) | D22 => C D1 (g x y) | D23 => C D2 (g x y) | D24 => C D3 (g x y) | D25 => C D4 (g x y) | D26 => C D5 (g x y) | D27 => C D6 (g x y) | D28 => C D7 (g x y) | D29 => C D8 (g x y) | D30 => C D9 (g x y) | D31 => C D10 (g x y) | D32 => C D11 (g x y) | D33 => C D12 (g x y) | D34 => C D13 (g x y) | D35 => C D14 (g x y) | D36 => C D15 (g x y) | D37 => C D16 (g x y) | D38 => C D17 (g x y) | D39 => C D18 (g x y) | D40 => C D19 (g x y) | D41 => C D20 (g x y) | D42 => C D21 (g x y) | D43 => C D22 (g x y) | D44 => C D23 (g x y) | D45 => C D24 (g x y) | D46 => C D25 (g x y) | D47 => C D26 (g x y) | D48 => C D27 (g x y) | D49 => C D28 (g x y) | D50 => C D29 (g x y) | D51 => C D30 (g x y) | D52 => C D31 (g x y) | D53 => C D32 (g x y) | D54 => C D33 (g x y) | D55 => C D34 (g x y) | D56 => C D35 (g x y) | D57 => C D36 (g x y) | D58 => C D37 (g x y) | D59 => C D38 (g x y) | D60 => C D39 (g x y) | D61 => C D40 (g x y) | D62 => C D41 (g x y) | D63 => C D42 (g x y) end
    | D43 => match e with | D0 => C D44 (f x y) | D1 => C D45 (f x y) | D2 => C D46 (f x y) | D3 => C D47 (f x y) | D4 => C D48 (f x y) | D5 => C D49 (f x y) | D6 => C D50 (f x y) | D7 => C D51 (f x y) | D8 => C D52 (f x y) | D9 => C D53 (f x y) | D10 => C D54 (f x y) | D11 => C D55 (f x y) | D12 => C D56 (f x y) | D13 => C D57 (f x y) | D14 => C D58 (f x y) | D15 => C D59 (f x y) | D16 => C D60 (f x y) | D17 => C D61 (f x y) | D18 => C D62 (f x y) | D19 => C D63 (f x y) | D20 => C D0 (g x y) | D21 => C D1 (g x y) | D22 => C D2 (g x y) | D23 => C D3 (g x y) | D24 => C D4 (g x y) | D25 => C D5 (g x y) | D26 => C D6 (g x y) | D27 => C D7 (g x y) | D28 => C D8 (g x y) | D29 => C D9 (g x y) | D30 => C D10 (g x y) | D31 => C D11 (g x y) | D32 => C D12 (g x y) | D33 => C D13 (g x y) | D34 => C D14 (g x y) | D35 => C D15 (g x y) | D36 => C D16 (g x y) | D37 => C D17 (g x y) | D38 => C D18 (g x y) | D39 => C D19 (g x y) | D40 => C D20 (g x y) | D41 => C D21 (g x y) | D42 => C D22 (g x y) | D43 => C D23 (g x y) | D44 => C D24 (g x y) | D45 => C D25 (g x y) | D46 => C D26 (g x y) | D47 => C D27 (g x y) | D48 => C D28 (g x y) | D49 => C D29 (g x y) | D50 => C D30 (g x y) | D51 => C D31 (g x y) | D52 => C D32 (g x y) | D53 => C D33 (g x y) | D54 => C D34 (g x y) | D55 => C D35 (g x y) | D56 => C D36 (g x y) | D57 => C D37 (g x y) | D58 => C D38 (g x y) | D59 => C D39 (g x y) | D60 => C D40 (g x y) | D61 => C D41 (g x y) | D62 => C D42 (g x y) | D63 => C D43 (g x y) end
    | D44 => match e with | D0 => C D45 (f x y) | D1 => C D46 (f x y) | D2 => C D47 (f x y) | D3 => C D48 (f x y) | D4 => C D49 (f x y) | D5 => C D50 (f x y) | D6 => C D51 (f x y) | D7 => C D52 (f x y) | D8 => C D53 (f x y) | D9 => C D54 (f x y) | D10 => C D55 (f x y) | D11 => C D56 (f x y) | D12 => C D57 (f x y) | D13 => C D58 (f x y) | D14 => C D59 (f x y) | D15 => C D60 (f x y) | D16 => C D61 (f x y) | D17 => C D62 (f x y) | D18 => C D63 (f x y) | D19 => C D0 (g x y) | D20 => C D1 (g x y) | D21 => C D2 (g x y) | D22 => C D3 (g x y) | D23 => C D4 (g x y) | D24 => C D5 (g x y) | D25 => C D6 (g x y) | D26 => C D7 (g x y) | D27 => C D8 (g x y) | D28 => C D9 (g x y) | D29 => C D10 (g x y) | D30 => C D11 (g x y) | D31 => C D12 (g x y) | D32 => C D13 (g x y) | D33 => C D14 (g x y) | D34 => C D15 (g x y) | D35 => C D16 (g x y) | D36 => C D17 (g x y) | D37 => C D18 (g x y) | D38 => C D19 (g x y) | D39 => C D20 (g x y) | D40 => C D21 (g x y) | D41 => C D22 (g x y) | D42 => C D23 (g x y) | D43 => C D24 (g x y) | D44 => C D25 (g x y) | D45 => C D26 (g x y) | D46 => C D27 (g x y) | D47 => C D28 (g x y) | D48 => C D29 (g x y) | D49 => C D30 (g x y) | D50 => C D31 (g x y) | D51 => C D32 (g x y) | D52 => C D33 (g x y) | D53 => C D34 (g x y) | D54 => C D35 (g x y) | D55 => C D36 (g x y) | D56 => C D37 (g x y) | D57 => C D38 (g x y) | D58 => C D39 (g x y) | D59 => C D40 (g x y) | D60 => C D41 (g x y) | D61 => C D42 (g x y) | D62 => C D43 (g x y) | D63 => C D44 (g x y) end
    | D45 => match e with | D0 => C D46 (f x y) | D1 => C D47 (f x y) | D2 => C D48 (f x y) | D3 => C D49 (f x y) | D4 => C D50 (f x y) | D5 => C D51 (f x y) | D6 => C D52 (f x y) | D7 => C D53 (f x y) | D8 => C D54 (f x y) | D9 => C D55 (f x y) | D10 => C D56 (f x y) | D11 => C D57 (f x y) | D12 => C D58 (f x y) | D13 => C D59 (f x y) | D14 => C D60 (f x y) | D15 => C D61 (f x y) | D16 => C D62 (f x y) | D17 => C D63 (f x y) | D18 => C D0 (g x y) | D19 => C D1 (g x y) | D20 => C D2 (g x y) | D21 => C D3 (g x y) | D22 => C D4 (g x y) | D23 => C D5 (g x y) | D24 => C D6 (g x y) | D25 => C D7 (g x y) | D26 => C D8 (g x y) | D27 => C D9 (g x y) | D28 => C D10 (g x y) | D29 => C D11 (g x y) | D30 => C D12 (g x y) | D31 => C D13 (g x y) | D32 => C D14 (g x y) | D33 => C D15 (g x y) | D34 => C D16 (g x y) | D35 => C D17 (g x y) | D36 => C D18 (g x y) | D37 => C D19 (g x y) | D38 => C D20 (g x y) | D39 => C D21 (g x y) | D40 => C D22 (g x y) | D41 => C D23 (g x y) | D42 => C D24 (g x y) | D43 => C D25 (g x y) | D44 => C D26 (g x y) | D45 => C D27 (g x y) | D46 => C D28 (g x y) | D47 => C D29 (g x y) | D48 => C D30 (g x y) | D49 => C D31 (g x y) | D50 => C D32 (g x y) | D51 => C D33 (g x y) | D52 => C D34 (g x y) | D53 => C D35 (g x y) | D54 => C D36 (g x y) | D55 => C D37 (g x y) | D56 => C D38 (g x y) | D57 => C D39 (g x y) | D58 => C D40 (g x y) | D59 => C D41 (g x y) | D60 => C D42 (g x y) | D61 => C D43 (g x y) | D62 => C D44 (g x y) | D63 => C D45 (g x y) end
    | D46 => match e with | D0 => C D47 (f x y) | D1 => C D48 (f x y) | D2 => C D49 (f x y) | D3 => C D50 (f x y) | D4 => C D51 (f x y) | D5 => C D52 (f x y) | D6 => C D53 (f x y) | D7 => C D54 (f x y) | D8 => C D55 (f x y) | D9 => C D56 (f x y) | D10 => C D57 (f x y) | D11 => C D58 (f x y) | D12 => C D59 (f x y) | D13 => C D60 (f x y) | D14 => C D61 (f x y) | D15 => C D62 (f x y) | D16 => C D63 (f x y) | D17 => C D0 (g x y) | D18 => C D1 (g x y) | D19 => C D2 (g x y) | D20 => C D3 (g x y) | D21 => C D4 (g x y) | D22 => C D5 (g x y) | D23 => C D6 (g x y) | D24 => C D7 (g x y) | D25 => C D8 (g x y) | D26 => C D9 (g x y) | D27 => C D10 (g x y) | D28 => C D11 (g x y) | D29 => C D12 (g x y) | D30 => C D13 (g x y) | D31 => C D14 (g x y) | D32 => C D15 (g x y) | D33 => C D16 (g x y) | D34 => C D17 (g x y) | D35 => C D18 (g x y) | D36 => C D19 (g x y) | D37 => C D20 (g x y) | D38 => C D21 (g x y) | D39 => C D22 (g x y) | D40 => C D23 (g x y) | D41 => C D24 (g x y) | D42 => C D25 (g x y) | D43 => C D26 (g x y) | D44 => C D27 (g x y) | D45 => C D28 (g x y) | D46 => C D29 (g x y) | D47 => C D30 (g x y) | D48 => C D31 (g x y) | D49 => C D32 (g x y) | D50 => C D33 (g x y) | D51 => C D34 (g x y) | D52 => C D35 (g x y) | D53 => C D36 (g x y) | D54 => C D37 (g x y) | D55 => C D38 (g x y) | D56 => C D39 (g x y) | D57 => C D40 (g x y) | D58 => C D41 (g x y) | D59 => C D42 (g x y) | D60 => C D43 (g x y) | D61 => C D44 (g x y) | D62 => C D45 (g x y) | D63 => C D46 (g x y) end
    | D47 => match e with | D0 => C D48 (f x y) | D1 => C D49 (f x y) | D2 => C D50 (f x y) | D3 => C D51 (f x y) | D4 => C D52 (f x y) | D5 => C D53 (f x y) | D6 => C D54 (f x y) | D7 => C D55 (f x y) | D8 => C D56 (f x y) | D9 => C D57 (f x y) | D10 => C D58 (f x y) | D11 => C D59 (f x y) | D12 => C D60 (f x y) | D13 => C D61 (f x y) | D14 => C D62 (f x y) | D15 => C D63 (f x y) | D16 => C D0 (g x y) | D17 => C D1 (g x y) | D18 => C D2 (g x y) | D19 => C D3 (g x y) | D20 => C D4 (g x y) | D21 => C D5 (g x y) | D22 => C D6 (g x y) | D23 => C D7 (g x y) | D24 => C D8 (g x y) | D25 => C D9 (g x y) | D26 => C D10 (g x y) | D27 => C D11 (g x y) | D28 => C D12 (g x y) | D29 => C D13 (g x y) | D30 => C D14 (g x y) | D31 => C D15 (g x y) | D32 => C D16 (g x y) | D33 => C D17 (g x y) | D34 => C D18 (g x y) | D35 => C D19 (g x y) | D36 => C D20 (g x y) | D37 => C D21 (g x y) | D38 => C D22 (g x y) | D39 => C D23 (g x y) | D40 => C D24 (g x y) | D41 => C D25 (g x y) | D42 => C D26 (g x y) | D43 => C D27 (g x y) | D44 => C D28 (g x y) | D45 => C D29 (g x y) | D46 => C D30 (g x y) | D47 => C D31 (g x y) | D48 => C D32 (g x y) | D49 => C D33 (g x y) | D50 => C D34 (g x y) | D51 => C D35 (g x y) | D52 => C D36 (g x y) | D53 => C D37 (g x y) | D54 => C D38 (g x y) | D55 => C D39 (g x y) | D56 => C D40 (g x y) | D57 => C D41 (g x y) | D58 => C D42 (g x y) | D59 => C D43 (g x y) | D60 => C D44 (g x y) | D61 => C D45 (g x y) | D62 => C D46 (g x y) | D63 => C D47 (g x y) end
    | D48 => match e with | D0 => C D49 (f x y) | D1 => C D50 (f x y) | D2 => C D51 (f x y) | D3 => C D52 (f x y) | D4 => C D53 (f x y) | D5 => C D54 (f x y) | D6 => C D55 (f x y) | D7 => C D56 (f x y) | D8 => C D57 (f x y) | D9 => C D58 (f x y) | D10 => C D59 (f x y) | D11 => C D60 (f x y) | D12 => C D61 (f x y) | D13 => C D62 (f x y) | D14 => C D63 (f x y) | D15 => C D0 (g x y) | D16 => C D1 (g x y) | D17 => C D2 (g x y) | D18 => C D3 (g x y) | D19 => C D4 (g x y) | D20 => C D5 (g x y) | D21 => C D6 (g x y) | D22 => C D7 (g x y) | D23 => C D8 (g x y) | D24 => C D9 (g x y) | D25 => C D10 (g x y) | D26 => C D11 (g x y) | D27 => C D12 (g x y) | D28 => C D13 (g x y) | D29 => C D14 (g x y) | D30 => C D15 (g x y) | D31 => C D16 (g x y) | D32 => C D17 (g x y) | D33 => C D18 (g x y) | D34 => C D19 (g x y) | D35 => C D20 (g x y) | D36 => C D21 (g x y) | D37 => C D22 (g x y) | D38 => C D23 (g x y) | D39 => C D24 (g x y) | D40 => C D25 (g x y) | D41 => C D26 (g x y) | D42 => C D27 (g x y) | D43 => C D28 (g x y) | D44 => C D29 (g x y) | D45 => C D30 (g x y) | D46 => C D31 (g x y) | D47 => C D32 (g x y) | D48 => C D33 (g x y) | D49 => C D34 (g x y) | D50 => C D35 (g x y) | D51 => C D36 (g x y) | D52 => C D37 (g x y) | D53 => C D38 (g x y) | D54 => C D39 (g x y) | D55 => C D40 (g x y) | D56 => C D41 (g x y) | D57 => C D42 (g x y) | D58 => C D43 (g x y) | D59 => C D44 (g x y) | D60 => C D45 (g x y) | D61 => C D46 (g x y) | D62 => C D47 (g x y) | D63 => C D48 (g x y) end
    | D49 => match e with | D0 => C D50 (f x y) | D1 => C D51 (f x y) | D2 => C D52 (f x y) | D3 => C D53 (f x y) | D4 => C D54 (f x y) | D5 => C D55 (f x y) | D6 => C D56 (f x y) | D7 => C D57 (f x y) | D8 => C D58 (f x y) | D9 => C D59 (f x y) | D10 => C D60 (f x y) | D11 => C D61 (f x y) | D12 => C D62 (f x y) | D13 => C D63 (f x y) | D14 => C D0 (g x y) | D15 => C D1 (g x y) | D16 => C D2 (g x y) | D17 => C D3 (g x y) | D18 => C D4 (g x y) | D19 => C D5 (g x y) | D20 => C D6 (g x y) | D21 => C D7 (g x y) | D22 => C D8 (g x y) | D23 => C D9 (g x y) | D24 => C D10 (g x y) | D25 => C D11 (g x y) | D26 => C D12 (g x y) | D27 => C D13 (g x y) | D28 => C D14 (g x y) | D29 => C D15 (g x y) | D30 => C D16 (g x y) | D31 => C D17 (g x y) | D32 => C D18 (g x y) | D33 => C D19 (g x y) | D34 => C D20 (g x y) | D35 => C D21 (g x y) | D36 => C D22 (g x y) | D37 => C D23 (g x y) | D38 => C D24 (g x y) | D39 => C D25 (g x y) | D40 => C D26 (g x y) | D41 => C D27 (g x y) | D42 => C D28 (g x y) | D43 => C D29 (g x y) | D44 => C D30 (g x y) | D45 => C D31 (g x y) | D46 => C D32 (g x y) | D47 => C D33 (g x y) | D48 => C D34 (g x y) | D49 => C D35 (g x y) | D50 => C D36 (g x y) | D51 => C D37 (g x y) | D52 => C D38 (g x y) | D53 => C D39 (g x y) | D54 => C D40 (g x y) | D55 => C D41 (g x y) | D56 => C D42 (g x y) | D57 => C D43 (g x y) | D58 => C D44 (g x y) | D59 => C D45 (g x y) | D60 => C D46 (g x y) | D61 => C D47 (g x y) | D62 => C D48 (g x y) | D63 => C D49 (g x y) end
    | D50 => match e with | D0 => C D51 (f x y) | D1 => C D52 (f x y) | D2 => C D53 (f x y) | D3 => C D54 (f x y) | D4 => C D55 (f x y) | D5 => C D56 (f x y) | D6 => C D57 (f x y) | D7 => C D58 (f x y) | D8 => C D59 (f x y) | D9 => C D60 (f x y) | D10 => C D61 (f x y) | D11 => C D62 (f x y) | D12 => C D63 (f x y) | D13 => C D0 (g x y) | D14 => C D1 (g x y) | D15 => C D2 (g x y) | D16 => C D3 (g x y) | D17 => C D4 (g x y) | D18 => C D5 (g x y) | D19 => C D6 (g x y) | D20 => C D7 (g x y) | D21 => C D8 (g x y) | D22 => C D9 (g x y) | D23 => C D10 (g x y) | D24 => C D11 (g x y) | D25 => C D12 (g x y) | D26 => C D13 (g x y) | D27 => C D14 (g x y) | D28 => C D15 (g x y) | D29 => C D16 (g x y) | D30 => C D17 (g x y) | D31 => C D18 (g x y) | D32 => C D19 (g x y) | D33 => C D20 (g x y) | D34 => C D21 (g x y) | D35 => C D22 (g x y) | D36 => C D23 (g x y) | D37 => C D24 (g x y) | D38 => C D25 (g x y) | D39 => C D26 (g x y) | D40 => C D27 (g x y) | D41 => C D28 (g x y) | D42 => C D29 (g x y) | D43 => C D30 (g x y) | D44 => C D31 (g x y) | D45 => C D32 (g x y) | D46 => C D33 (g x y) | D47 => C D34 (g x y) | D48 => C D35 (g x y) | D49 => C D36 (g x y) | D50 => C D37 (g x y) | D51 => C D38 (g x y) | D52 => C D39 (g x y) | D53 => C D40 (g x y) | D54 => C D41 (g x y) | D55 => C D42 (g x y) | D56 => C D43 (g x y) | D57 => C D44 (g x y) | D58 => C D45 (g x y) | D59 => C D46 (g x y) | D60 => C D47 (g x y) | D61 => C D48 (g x y) | D62 => C D49 (g x y) | D63 => C D50 (g x y) end
    | D51 => match e with | D0 => C D52 (f x y) | D1 => C D53 (f x y) | D2 => C D54 (f x y) | D3 => C D55 (f x y) | D4 => C D56 (f x y) | D5 => C D57 (f x y) | D6 => C D58 (f x y) | D7 => C D59 (f x y) | D8 => C D60 (f x y) | D9 => C D61 (f x y) | D10 => C D62 (f x y) | D11 => C D63 (f x y) | D12 => C D0 (g x y) | D13 => C D1 (g x y) | D14 => C D2 (g x y) | D15 => C D3 (g x y) | D16 => C D4 (g x y) | D17 => C D5 (g x y) | D18 => C D6 (g x y) | D19 => C D7 (g x y) | D20 => C D8 (g x y) | D21 => C D9 (g x y) | D22 => C D10 (g x y) | D23 => C D11 (g x y) | D24 => C D12 (g x y) | D25 => C D13 (g x y) | D26 => C D14 (g x y) | D27 => C D15 (g x y) | D28 => C D16 (g x y) | D29 => C D17 (g x y) | D30 => C D18 (g x y) | D31 => C D19 (g x y) | D32 => C D20 (g x y) | D33 => C D21 (g x y) | D34 => C D22 (g x y) | D35 => C D23 (g x y) | D36 => C D24 (g x y) | D37 => C D25 (g x y) | D38 => C D26 (g x y) | D39 => C D27 (g x y) | D40 => C D28 (g x y) | D41 => C D29 (g x y) | D42 => C D30 (g x y) | D43 => C D31 (g x y) | D44 => C D32 (g x y) | D45 => C D33 (g x y) | D46 => C D34 (g x y) | D47 => C D35 (g x y) | D48 => C D36 (g x y) | D49 => C D37 (g x y) | D50 => C D38 (g x y) | D51 => C D39 (g x y) | D52 => C D40 (g x y) | D53 => C D41 (g x y) | D54 => C D42 (g x y) | D55 => C D43 (g x y) | D56 => C D44 (g x y) | D57 => C D45 (g x y) | D58 => C D46 (g x y) | D59 => C D47 (g x y) | D60 => C D48 (g x y) | D61 => C D49 (g x y) | D62 => C D50 (g x y) | D63 => C D51 (g x y) end
    | D52 => match e with | D0 => C D53 (f x y) | D1 => C D54 (f x y) | D2 => C D55 (f x y) | D3 => C D56 (f x y) | D4 => C D57 (f x y) | D5 => C D58 (f x y) | D6 => C D59 (f x y) | D7 => C D60 (f x y) | D8 => C D61 (f x y) | D9 => C D62 (f x y) | D10 => C D63 (f x y) | D11 => C D0 (g x y) | D12 => C D1 (g x y) | D13 => C D2 (g x y) | D14 => C D3 (g x y) | D15 => C D4 (g x y) | D16 => C D5 (g x y) | D17 => C D6 (g x y) | D18 => C D7 (g x y) | D19 => C D8 (g x y) | D20 => C D9 (g x y) | D21 => C D10 (g x y) | D22 => C D11 (g x y) | D23 => C D12 (g x y) | D24 => C D13 (g x y) | D25 => C D14 (g x y) | D26 => C D15 (g x y) | D27 => C D16 (g x y) | D28 => C D17 (g x y) | D29 => C D18 (g x y) | D30 => C D19 (g x y) | D31 => C D20 (g x y) | D32 => C D21 (g x y) | D33 => C D22 (g x y) | D34 => C D23 (g x y) | D35 => C D24 (g x y) | D36 => C D25 (g x y) | D37 => C D26 (g x y) | D38 => C D27 (g x y) | D39 => C D28 (g x y) | D40 => C D29 (g x y) | D41 => C D30 (g x y) | D42 => C D31 (g x y) | D43 => C D32 (g x y) | D44 => C D33 (g x y) | D45 => C D34 (g x y) | D46 => C D35 (g x y) | D47 => C D36 (g x y) | D48 => C D37 (g x y) | D49 => C D38 (g x y) | D50 => C D39 (g x y) | D51 => C D40 (g x y) | D52 => C D41 (g x y) | D53 => C D42 (g x y) | D54 => C D43 (g x y) | D55 => C D44 (g x y) | D56 => C D45 (g x y) | D57 => C D46 (g x y) | D58 => C D47 (g x y) | D59 => C D48 (g x y) | D60 => C D49 (g x y) | D61 => C D50 (g x y) | D62 => C D51 (g x y) | D63 => C D52 (g x y) end
    | D53 => match e with | D0 => C D54 (f x y) | D1 => C D55 (f x y) | D2 => C D56 (f x y) | D3 => C D57 (f x y) | D4 => C D58 (f x y) | D5 => C D59 (f x y) | D6 => C D60 (f x y) | D7 => C D61 (f x y) | D8 => C D62 (f x y) | D9 => C D63 (f x y) | D10 => C D0 (g x y) | D11 => C D1 (g x y) | D12 => C D2 (g x y) | D13 => C D3 (g x y) | D14 => C D4 (g x y) | D15 => C D5 (g x y) | D16 => C D6 (g x y) | D17 => C D7 (g x y) | D18 => C D8 (g x y) | D19 => C D9 (g x y) | D20 => C D10 (g x y) | D21 => C D11 (g x y) | D22 => C D12 (g x y) | D23 => C D13 (g x y) | D24 => C D14 (g x y) | D25 => C D15 (g x y) | D26 => C D16 (g x y) | D27 => C D17 (g x y) | D28 => C D18 (g x y) | D29 => C D19 (g x y) | D30 => C D20 (g x y) | D31 => C D21 (g x y) | D32 => C D22 (g x y) | D33 => C D23 (g x y) | D34 => C D24 (g x y) | D35 => C D25 (g x y) | D36 => C D26 (g x y) | D37 => C D27 (g x y) | D38 => C D28 (g x y) | D39 => C D29 (g x y) | D40 => C D30 (g x y) | D41 => C D31 (g x y) | D42 => C D32 (g x y) | D43 => C D33 (g x y) | D44 => C D34 (g x y) | D45 => C D35 (g x y) | D46 => C D36 (g x y) | D47 => C D37 (g x y) | D48 => C D38 (g x y) | D49 => C D39 (g x y) | D50 => C D40 (g x y) | D51 => C D41 (g x y) | D52 => C D42 (g x y) | D53 => C D43 (g x y) | D54 => C D44 (g x y) | D55 => C D45 (g x y) | D56 => C D46 (g x y) | D57 => C D47 (g x y) | D58 => C D48 (g x y) | D59 => C D49 (g x y) | D60 => C D50 (g x y) | D61 => C D51 (g x y) | D62 => C D52 (g x y) | D63 => C D53 (g x y) end
    | D54 => match e with | D0 => C D55 (f x y) | D1 => C D56 (f x y) | D2 => C D57 (f x y) | D3 => C D58 (f x y) | D4 => C D59 (f x y) | D5 => C D60 (f x y) | D6 => C D61 (f x y) | D7 => C D62 (f x y) | D8 => C D63 (f x y) | D9 => C D0 (g x y) | D10 => C D1 (g x y) | D11 => C D2 (g x y) | D12 => C D3 (g x y) | D13 => C D4 (g x y) | D14 => C D5 (g x y) | D15 => C D6 (g x y) | D16 => C D7 (g x y) | D17 => C D8 (g x y) | D18 => C D9 (g x y) | D19 => C D10 (g x y) | D20 => C D11 (g x y) | D21 => C D12 (g x y) | D22 => C D13 (g x y) | D23 => C D14 (g x y) | D24 => C D15 (g x y) | D25 => C D16 (g x y) | D26 => C D17 (g x y) | D27 => C D18 (g x y) | D28 => C D19 (g x y) | D29 => C D20 (g x y) | D30 => C D21 (g x y) | D31 => C D22 (g x y) | D32 => C D23 (g x y) | D33 => C D24 (g x y) | D34 => C D25 (g x y) | D35 => C D26 (g x y) | D36 => C D27 (g x y) | D37 => C D28 (g x y) | D38 => C D29 (g x y) | D39 => C D30 (g x y) | D40 => C D31 (g x y) | D41 => C D32 (g x y) | D42 => C D33 (g x y) | D43 => C D34 (g x y) | D44 => C D35 (g x y) | D45 => C D36 (g x y) | D46 => C D37 (g x y) | D47 => C D38 (g x y) | D48 => C D39 (g x y) | D49 => C D40 (g x y) | D50 => C D41 (g x y) | D51 => C D42 (g x y) | D52 => C D43 (g x y) | D53 => C D44 (g x y) | D54 => C D45 (g x y) | D55 => C D46 (g x y) | D56 => C D47 (g x y) | D57 => C D48 (g x y) | D58 => C D49 (g x y) | D59 => C D50 (g x y) | D60 => C D51 (g x y) | D61 => C D52 (g x y) | D62 => C D53 (g x y) | D63 => C D54 (g x y) end
    | D55 => match e with | D0 => C D56 (f x y) | D1 => C D57 (f x y) | D2 => C D58 (f x y) | D3 => C D59 (f x y) | D4 => C D60 (f x y) | D5 => C D61 (f x y) | D6 => C D62 (f x y) | D7 => C D63 (f x y) | D8 => C D0 (g x y) | D9 => C D1 (g x y) | D10 => C D2 (g x y) | D11 => C D3 (g x y) | D12 => C D4 (g x y) | D13 => C D5 (g x y) | D14 => C D6 (g x y) | D15 => C D7 (g x y) | D16 => C D8 (g x y) | D17 => C D9 (g x y) | D18 => C D10 (g x y) | D19 => C D11 (g x y) | D20 => C D12 (g x y) | D21 => C D13 (g x y) | D22 => C D14 (g x y) | D23 => C D15 (g x y) | D24 => C D16 (g x y) | D25 => C D17 (g x y) | D26 => C D18 (g x y) | D27 => C D19 (g x y) | D28 => C D20 (g x y) | D29 => C D21 (g x y) | D30 => C D22 (g x y) | D31 => C D23 (g x y) | D32 => C D24 (g x y) | D33 => C D25 (g x y) | D34 => C D26 (g x y) | D35 => C D27 (g x y) | D36 => C D28 (g x y) | D37 => C D29 (g x y) | D38 => C D30 (g x y) | D39 => C D31 (g x y) | D40 => C D32 (g x y) | D41 => C D33 (g x y) | D42 => C D34 (g x y) | D43 => C D35 (g x y) | D44 => C D36 (g x y) | D45 => C D37 (g x y) | D46 => C D38 (g x y) | D47 => C D39 (g x y) | D48 => C D40 (g x y) | D49 => C D41 (g x y) | D50 => C D42 (g x y) | D51 => C D43 (g x y) | D52 => C D44 (g x y) | D53 => C D45 (g x y) | D54 => C D46 (g x y) | D55 => C D47 (g x y) | D56 => C D48 (g x y) | D57 => C D49 (g x y) | D58 => C D50 (g x y) | D59 => C D51 (g x y) | D60 => C D52 (g x y) | D61 => C D53 (g x y) | D62 => C D54 (g x y) | D63 => C D55 (g x y) end
    | D56 => match e with | D0 => C D57 (f x y) | D1 => C D58 (f x y) | D2 => C D59 (f x y) | D3 => C D60 (f x y) | D4 => C D61 (f x y) | D5 => C D62 (f x y) | D6 => C D63 (f x y) | D7 => C D0 (g x y) | D8 => C D1 (g x y) | D9 => C D2 (g x y) | D10 => C D3 (g x y) | D11 => C D4 (g x y) | D12 => C D5 (g x y) | D13 => C D6 (g x y) | D14 => C D7 (g x y) | D15 => C D8 (g x y) | D16 => C D9 (g x y) | D17 => C D10 (g x y) | D18 => C D11 (g x y) | D19 => C D12 (g x y) | D20 => C D13 (g x y) | D21 => C D14 (g x y) | D22 => C D15 (g x y) | D23 => C D16 (g x y) | D24 => C D17 (g x y) | D25 => C D18 (g x y) | D26 => C D19 (g x y) | D27 => C D20 (g x y) | D28 => C D21 (g x y) | D29 => C D22 (g x y) | D30 => C D23 (g x y) | D31 => C D24 (g x y) | D32 => C D25 (g x y) | D33 => C D26 (g x y) | D34 => C D27 (g x y) | D35 => C D28 (g x y) | D36 => C D29 (g x y) | D37 => C D30 (g x y) | D38 => C D31 (g x y) | D39 => C D32 (g x y) | D40 => C D33 (g x y) | D41 => C D34 (g x y) | D42 => C D35 (g x y) | D43 => C D36 (g x y) | D44 => C D37 (g x y) | D45 => C D38 (g x y) | D46 => C D39 (g x y) | D47 => C D40 (g x y) | D48 => C D41 (g x y) | D49 => C D42 (g x y) | D50 => C D43 (g x y) | D51 => C D44 (g x y) | D52 => C D45 (g x y) | D53 => C D46 (g x y) | D54 => C D47 (g x y) | D55 => C D48 (g x y) | D56 => C D49 (g x y) | D57 => C D50 (g x y) | D58 => C D51 (g x y) | D59 => C D52 (g x y) | D60 => C D53 (g x y) | D61 => C D54 (g x y) | D62 => C D55 (g x y) | D63 => C D56 (g x y) end
    | D57 => match e with | D0 => C D58 (f x y) | D1 => C D59 (f x y) | D2 => C D60 (f x y) | D3 => C D61 (f x y) | D4 => C D62 (f x y) | D5 => C D63 (f x y) | D6 => C D0 (g x y) | D7 => C D1 (g x y) | D8 => C D2 (g x y) | D9 => C D3 (g x y) | D10 => C D4 (g x y) | D11 => C D5 (g x y) | D12 => C D6 (g x y) | D13 => C D7 (g x y) | D14 => C D8 (g x y) | D15 => C D9 (g x y) | D16 => C D10 (g x y) | D17 => C D11 (g x y) | D18 => C D12 (g x y) | D19 => C D13 (g x y) | D20 => C D14 (g x y) | D21 => C D15 (g x y) | D22 => C D16 (g x y) | D23 => C D17 (g x y) | D24 => C D18 (g x y) | D25 => C D19 (g x y) | D26 => C D20 (g x y) | D27 => C D21 (g x y) | D28 => C D22 (g x y) | D29 => C D23 (g x y) | D30 => C D24 (g x y) | D31 => C D25 (g x y) | D32 => C D26 (g x y) | D33 => C D27 (g x y) | D34 => C D28 (g x y) | D35 => C D29 (g x y) | D36 => C D30 (g x y) | D37 => C D31 (g x y) | D38 => C D32 (g x y) | D39 => C D33 (g x y) | D40 => C D34 (g x y) | D41 => C D35 (g x y) | D42 => C D36 (g x y) | D43 => C D37 (g x y) | D44 => C D38 (g x y) | D45 => C D39 (g x y) | D46 => C D40 (g x y) | D47 => C D41 (g x y) | D48 => C D42 (g x y) | D49 => C D43 (g x y) | D50 => C D44 (g x y) | D51 => C D45 (g x y) | D52 => C D46 (g x y) | D53 => C D47 (g x y) | D54 => C D48 (g x y) | D55 => C D49 (g x y) | D56 => C D50 (g x y) | D57 => C D51 (g x y) | D58 => C D52 (g x y) | D59 => C D53 (g x y) | D60 => C D54 (g x y) | D61 => C D55 (g x y) | D62 => C D56 (g x y) | D63 => C D57 (g x y) end
    | D58 => match e with | D0 => C D59 (f x y) | D1 => C D60 (f x y) | D2 => C D61 (f x y) | D3 => C D62 (f x y) | D4 => C D63 (f x y) | D5 => C D0 (g x y) | D6 => C D1 (g x y) | D7 => C D2 (g x y) | D8 => C D3 (g x y) | D9 => C D4 (g x y) | D10 => C D5 (g x y) | D11 => C D6 (g x y) | D12 => C D7 (g x y) | D13 => C D8 (g x y) | D14 => C D9 (g x y) | D15 => C D10 (g x y) | D16 => C D11 (g x y) | D17 => C D12 (g x y) | D18 => C D13 (g x y) | D19 => C D14 (g x y) | D20 => C D15 (g x y) | D21 => C D16 (g x y) | D22 => C D17 (g x y) | D23 => C D18 (g x y) | D24 => C D19 (g x y) | D25 => C D20 (g x y) | D26 => C D21 (g x y) | D27 => C D22 (g x y) | D28 => C D23 (g x y) | D29 => C D24 (g x y) | D30 => C D25 (g x y) | D31 => C D26 (g x y) | D32 => C D27 (g x y) | D33 => C D28 (g x y) | D34 => C D29 (g x y) | D35 => C D30 (g x y) | D36 => C D31 (g x y) | D37 => C D32 (g x y) | D38 => C D33 (g x y) | D39 => C D34 (g x y) | D40 => C D35 (g x y) | D41 => C D36 (g x y) | D42 => C D37 (g x y) | D43 => C D38 (g x y) | D44 => C D39 (g x y) | D45 => C D40 (g x y) | D46 => C D41 (g x y) | D47 => C D42 (g x y) | D48 => C D43 (g x y) | D49 => C D44 (g x y) | D50 => C D45 (g x y) | D51 => C D46 (g x y) | D52 => C D47 (g x y) | D53 => C D48 (g x y) | D54 => C D49 (g x y) | D55 => C D50 (g x y) | D56 => C D51 (g x y) | D57 => C D52 (g x y) | D58 => C D53 (g x y) | D59 => C D54 (g x y) | D60 => C D55 (g x y) | D61 => C D56 (g x y) | D62 => C D57 (g x y) | D63 => C D58 (g x y) end
    | D59 => match e with | D0 => C D60 (f x y) | D1 => C D61 (f x y) | D2 => C D62 (f x y) | D3 => C D63 (f x y) | D4 => C D0 (g x y) | D5 => C D1 (g x y) | D6 => C D2 (g x y) | D7 => C D3 (g x y) | D8 => C D4 (g x y) | D9 => C D5 (g x y) | D10 => C D6 (g x y) | D11 => C D7 (g x y) | D12 => C D8 (g x y) | D13 => C D9 (g x y) | D14 => C D10 (g x y) | D15 => C D11 (g x y) | D16 => C D12 (g x y) | D17 => C D13 (g x y) | D18 => C D14 (g x y) | D19 => C D15 (g x y) | D20 => C D16 (g x y) | D21 => C D17 (g x y) | D22 => C D18 (g x y) | D23 => C D19 (g x y) | D24 => C D20 (g x y) | D25 => C D21 (g x y) | D26 => C D22 (g x y) | D27 => C D23 (g x y) | D28 => C D24 (g x y) | D29 => C D25 (g x y) | D30 => C D26 (g x y) | D31 => C D27 (g x y) | D32 => C D28 (g x y) | D33 => C D29 (g x y) | D34 => C D30 (g x y) | D35 => C D31 (g x y) | D36 => C D32 (g x y) | D37 => C D33 (g x y) | D38 => C D34 (g x y) | D39 => C D35 (g x y) | D40 => C D36 (g x y) | D41 => C D37 (g x y) | D42 => C D38 (g x y) | D43 => C D39 (g x y) | D44 => C D40 (g x y) | D45 => C D41 (g x y) | D46 => C D42 (g x y) | D47 => C D43 (g x y) | D48 => C D44 (g x y) | D49 => C D45 (g x y) | D50 => C D46 (g x y) | D51 => C D47 (g x y) | D52 => C D48 (g x y) | D53 => C D49 (g x y) | D54 => C D50 (g x y) | D55 => C D51 (g x y) | D56 => C D52 (g x y) | D57 => C D53 (g x y) | D58 => C D54 (g x y) | D59 => C D55 (g x y) | D60 => C D56 (g x y) | D61 => C D57 (g x y) | D62 => C D58 (g x y) | D63 => C D59 (g x y) end
    | D60 => match e with | D0 => C D61 (f x y) | D1 => C D62 (f x y) | D2 => C D63 (f x y) | D3 => C D0 (g x y) | D4 => C D1 (g x y) | D5 => C D2 (g x y) | D6 => C D3 (g x y) | D7 => C D4 (g x y) | D8 => C D5 (g x y) | D9 => C D6 (g x y) | D10 => C D7 (g x y) | D11 => C D8 (g x y) | D12 => C D9 (g x y) | D13 => C D10 (g x y) | D14 => C D11 (g x y) | D15 => C D12 (g x y) | D16 => C D13 (g x y) | D17 => C D14 (g x y) | D18 => C D15 (g x y) | D19 => C D16 (g x y) | D20 => C D17 (g x y) | D21 => C D18 (g x y) | D22 => C D19 (g x y) | D23 => C D20 (g x y) | D24 => C D21 (g x y) | D25 => C D22 (g x y) | D26 => C D23 (g x y) | D27 => C D24 (g x y) | D28 => C D25 (g x y) | D29 => C D26 (g x y) | D30 => C D27 (g x y) | D31 => C D28 (g x y) | D32 => C D29 (g x y) | D33 => C D30 (g x y) | D34 => C D31 (g x y) | D35 => C D32 (g x y) | D36 => C D33 (g x y) | D37 => C D34 (g x y) | D38 => C D35 (g x y) | D39 => C D36 (g x y) | D40 => C D37 (g x y) | D41 => C D38 (g x y) | D42 => C D39 (g x y) | D43 => C D40 (g x y) | D44 => C D41 (g x y) | D45 => C D42 (g x y) | D46 => C D43 (g x y) | D47 => C D44 (g x y) | D48 => C D45 (g x y) | D49 => C D46 (g x y) | D50 => C D47 (g x y) | D51 => C D48 (g x y) | D52 => C D49 (g x y) | D53 => C D50 (g x y) | D54 => C D51 (g x y) | D55 => C D52 (g x y) | D56 => C D53 (g x y) | D57 => C D54 (g x y) | D58 => C D55 (g x y) | D59 => C D56 (g x y) | D60 => C D57 (g x y) | D61 => C D58 (g x y) | D62 => C D59 (g x y) | D63 => C D60 (g x y) end
    | D61 => match e with | D0 => C D62 (f x y) | D1 => C D63 (f x y) | D2 => C D0 (g x y) | D3 => C D1 (g x y) | D4 => C D2 (g x y) | D5 => C D3 (g x y) | D6 => C D4 (g x y) | D7 => C D5 (g x y) | D8 => C D6 (g x y) | D9 => C D7 (g x y) | D10 => C D8 (g x y) | D11 => C D9 (g x y) | D12 => C D10 (g x y) | D13 => C D11 (g x y) | D14 => C D12 (g x y) | D15 => C D13 (g x y) | D16 => C D14 (g x y) | D17 => C D15 (g x y) | D18 => C D16 (g x y) | D19 => C D17 (g x y) | D20 => C D18 (g x y) | D21 => C D19 (g x y) | D22 => C D20 (g x y) | D23 => C D21 (g x y) | D24 => C D22 (g x y) | D25 => C D23 (g x y) | D26 => C D24 (g x y) | D27 => C D25 (g x y) | D28 => C D26 (g x y) | D29 => C D27 (g x y) | D30 => C D28 (g x y) | D31 => C D29 (g x y) | D32 => C D30 (g x y) | D33 => C D31 (g x y) | D34 => C D32 (g x y) | D35 => C D33 (g x y) | D36 => C D34 (g x y) | D37 => C D35 (g x y) | D38 => C D36 (g x y) | D39 => C D37 (g x y) | D40 => C D38 (g x y) | D41 => C D39 (g x y) | D42 => C D40 (g x y) | D43 => C D41 (g x y) | D44 => C D42 (g x y) | D45 => C D43 (g x y) | D46 => C D44 (g x y) | D47 => C D45 (g x y) | D48 => C D46 (g x y) | D49 => C D47 (g x y) | D50 => C D48 (g x y) | D51 => C D49 (g x y) | D52 => C D50 (g x y) | D53 => C D51 (g x y) | D54 => C D52 (g x y) | D55 => C D53 (g x y) | D56 => C D54 (g x y) | D57 => C D55 (g x y) | D58 => C D56 (g x y) | D59 => C D57 (g x y) | D60 => C D58 (g x y) | D61 => C D59 (g x y) | D62 => C D60 (g x y) | D63 => C D61 (g x y) end
    | D62 => match e with | D0 => C D63 (f x y) | D1 => C D0 (g x y) | D2 => C D1 (g x y) | D3 => C D2 (g x y) | D4 => C D3 (g x y) | D5 => C D4 (g x y) | D6 => C D5 (g x y) | D7 => C D6 (g x y) | D8 => C D7 (g x y) | D9 => C D8 (g x y) | D10 => C D9 (g x y) | D11 => C D10 (g x y) | D12 => C D11 (g x y) | D13 => C D12 (g x y) | D14 => C D13 (g x y) | D15 => C D14 (g x y) | D16 => C D15 (g x y) | D17 => C D16 (g x y) | D18 => C D17 (g x y) | D19 => C D18 (g x y) | D20 => C D19 (g x y) | D21 => C D20 (g x y) | D22 => C D21 (g x y) | D23 => C D22 (g x y) | D24 => C D23 (g x y) | D25 => C D24 (g x y) | D26 => C D25 (g x y) | D27 => C D26 (g x y) | D28 => C D27 (g x y) | D29 => C D28 (g x y) | D30 => C D29 (g x y) | D31 => C D30 (g x y) | D32 => C D31 (g x y) | D33 => C D32 (g x y) | D34 => C D33 (g x y) | D35 => C D34 (g x y) | D36 => C D35 (g x y) | D37 => C D36 (g x y) | D38 => C D37 (g x y) | D39 => C D38 (g x y) | D40 => C D39 (g x y) | D41 => C D40 (g x y) | D42 => C D41 (g x y) | D43 => C D42 (g x y) | D44 => C D43 (g x y) | D45 => C D44 (g x y) | D46 => C D45 (g x y) | D47 => C D46 (g x y) | D48 => C D47 (g x y) | D49 => C D48 (g x y) | D50 => C D49 (g x y) | D51 => C D50 (g x y) | D52 => C D51 (g x y) | D53 => C D52 (g x y) | D54 => C D53 (g x y) | D55 => C D54 (g x y) | D56 => C D55 (g x y) | D57 => C D56 (g x y) | D58 => C D57 (g x y) | D59 => C D58 (g x y) | D60 => C D59 (g x y) | D61 => C D60 (g x y) | D62 => C D61 (g x y) | D63 => C D62 (g x y) end
    | D63 => match e with | D0 => C D0 (g x y) | D1 => C D1 (g x y) | D2 => C D2 (g x y) | D3 => C D3 (g x y) | D4 => C D4 (g x y) | D5 => C D5 (g x y) | D6 => C D6 (g x y) | D7 => C D7 (g x y) | D8 => C D8 (g x y) | D9 => C D9 (g x y) | D10 => C D10 (g x y) | D11 => C D11 (g x y) | D12 => C D12 (g x y) | D13 => C D13 (g x y) | D14 => C D14 (g x y) | D15 => C D15 (g x y) | D16 => C D16 (g x y) | D17 => C D17 (g x y) | D18 => C D18 (g x y) | D19 => C D19 (g x y) | D20 => C D20 (g x y) | D21 => C D21 (g x y) | D22 => C D22 (g x y) | D23 => C D23 (g x y) | D24 => C D24 (g x y) | D25 => C D25 (g x y) | D26 => C D26 (g x y) | D27 => C D27 (g x y) | D28 => C D28 (g x y) | D29 => C D29 (g x y) | D30 => C D30 (g x y) | D31 => C D31 (g x y) | D32 => C D32 (g x y) | D33 => C D33 (g x y) | D34 => C D34 (g x y) | D35 => C D35 (g x y) | D36 => C D36 (g x y) | D37 => C D37 (g x y) | D38 => C D38 (g x y) | D39 => C D39 (g x y) | D40 => C D40 (g x y) | D41 => C D41 (g x y) | D42 => C D42 (g x y) | D43 => C D43 (g x y) | D44 => C D44 (g x y) | D45 => C D45 (g x y) | D46 => C D46 (g x y) | D47 => C D47 (g x y) | D48 => C D48 (g x y) | D49 => C D49 (g x y) | D50 => C D50 (g x y) | D51 => C D51 (g x y) | D52 => C D52 (g x y) | D53 => C D53 (g x y) | D54 => C D54 (g x y) | D55 => C D55 (g x y) | D56 => C D56 (g x y) | D57 => C D57 (g x y) | D58 => C D58 (g x y) | D59 => C D59 (g x y) | D60 => C D60 (g x y) | D61 => C D61 (g x y) | D62 => C D62 (g x y) | D63 => C D63 (g x y) end
    end.
(** [add0 x y] = x + y, [add1 x y] = x + y + 1 *)
Fixpoint plus0 (x y : num) {struct x} : num :=
  match x with E => y | C d x => match y with E => C d x | C e y => tab0 plus0 plus1 d e x y end end
with plus1 (x y : num) {struct x} : num :=
  match x with E => inc y | C d x => match y with E => inc (C d x) | C e y => tab1 plus0 plus1 d e x y end end.
Definition add0 : num -> num -> num := Eval cbv beta delta [plus0 tab0 tab1] in plus0.
Definition add1 : num -> num -> num := Eval cbv beta delta [plus1 tab0 tab1] in plus1.
(** the complement of n digits *)
Definition cdig (d : D) : D :=
  match d with
    | D0 => D63 | D1 => D62 | D2 => D61 | D3 => D60 | D4 => D59 | D5 => D58 | D6 => D57 | D7 => D56 | D8 => D55 | D9 => D54 | D10 => D53 | D11 => D52 | D12 => D51 | D13 => D50 | D14 => D49 | D15 => D48
    | D16 => D47 | D17 => D46 | D18 => D45 | D19 => D44 | D20 => D43 | D21 => D42 | D22 => D41 | D23 => D40 | D24 => D39 | D25 => D38 | D26 => D37 | D27 => D36 | D28 => D35 | D29 => D34 | D30 => D33 | D31 => D32
    | D32 => D31 | D33 => D30 | D34 => D29 | D35 => D28 | D36 => D27 | D37 => D26 | D38 => D25 | D39 => D24 | D40 => D23 | D41 => D22 | D42 => D21 | D43 => D20 | D44 => D19 | D45 => D18 | D46 => D17 | D47 => D16
    | D48 => D15 | D49 => D14 | D50 => D13 | D51 => D12 | D52 => D11 | D53 => D10 | D54 => D9 | D55 => D8 | D56 => D7 | D57 => D6 | D58 => D5 | D59 => D4 | D60 => D3 | D61 => D2 | D62 => D1 | D63 => D0
  end.
Fixpoint cpl (n : nat) (x : num) : num :=
  match n with O => E | S n => match x with E => C D63 (cpl n E) | C d x => C (cdig d) (cpl n x) end end.
(** the lowest n digits, and whether something is above them *)
Fixpoint low (n : nat) (x : num) : num := match n with O => E | S n => match x with E => E | C d x => C d (low n x) end end.
Fixpoint zero (x : num) : bool := match x with E => true | C d x => match d with D0 => zero x | _ => false end end.
Fixpoint over (n : nat) (x : num) : bool := match n with O => negb (zero x) | S n => match x with E => false | C _ x => over n x end end.
Fixpoint same (x y : num) : bool := match x, y with E, y => zero y | x, E => zero x | C d x, C e y => (dv d =? dv e) && same x y end.

(** the modulus, its complement and its multiples without their lowest digit *)
Definition NP : num := (C D43 (C D42 (C D58 (C D63 (C D63 (C D63 (C D63 (C D63 (C D62 (C D39 (C D59 (C D63 (C D63 (C D15 (C D21 (C D44 (C D62 (C D63 (C D63 (C D42 (C D30 (C D16 (C D34 (C D61 (C D48 (C D26 (C D15 (C D40 (C D18 (C D3 (C D51 (C D25 (C D63 (C D10 (C D17 (C D33 (C D51 (C D19 (C D56 (C D18 (C D55 (C D17 (C D54 (C D53 (C D44 (C D46 (C D52 (C D16 (C D54 (C D30 (C D58 (C D6 (C D11 (C D41 (C D41 (C D57 (C D63 (C D37 (C D35 (C D58 (C D17 (C D4 (C D32 (C D6 E)))))))))))))))))))))))))))))))))))))))))))))))))))))))))))))))).
Definition CP : num := (C D20 (C D21 (C D5 (C D0 (C D0 (C D0 (C D0 (C D0 (C D1 (C D24 (C D4 (C D0 (C D0 (C D48 (C D42 (C D19 (C D1 (C D0 (C D0 (C D21 (C D33 (C D47 (C D29 (C D2 (C D15 (C D37 (C D48 (C D23 (C D45 (C D60 (C D12 (C D38 (C D0 (C D53 (C D46 (C D30 (C D12 (C D44 (C D7 (C D45 (C D8 (C D46 (C D9 (C D10 (C D19 (C D17 (C D11 (C D47 (C D9 (C D33 (C D5 (C D57 (C D52 (C D22 (C D22 (C D6 (C D0 (C D26 (C D28 (C D5 (C D46 (C D59 (C D31 (C D57 E)))))))))))))))))))))))))))))))))))))))))))))))))))))))))))))))).
Definition M1 : num := (C D42 (C D58 (C D58 (C D63 (C D63 (C D63 (C D63 (C D2 (C D7 (C D53 (C D59 (C D63 (C D15 (C D16 (C D16 (C D48 (C D62 (C D63 (C D62 (C D14 (C D45 (C D41 (C D41 (C D42 (C D32 (C D44 (C D22 (C D48 (C D8 (C D42 (C D37 (C D27 (C D30 (C D23 (C D45 (C D6 (C D56 (C D42 (C D63 (C D44 (C D1 (C D47 (C D20 (C D47 (C D32 (C D16 (C D2 (C D46 (C D25 (C D47 (C D37 (C D37 (C D15 (C D44 (C D60 (C D57 (C D13 (C D59 (C D51 (C D4 (C D5 (C D36 (C D12 (C D6 E)))))))))))))))))))))))))))))))))))))))))))))))))))))))))))))))).
Definition M2 : num := (C D42 (C D10 (C D59 (C D63 (C D63 (C D63 (C D63 (C D5 (C D15 (C D2 (C D60 (C D63 (C D31 (C D16 (C D11 (C D52 (C D62 (C D63 (C D61 (C D50 (C D59 (C D2 (C D49 (C D23 (C D16 (C D62 (C D29 (C D56 (C D62 (C D16 (C D24 (C D29 (C D61 (C D35 (C D9 (C D44 (C D60 (C D1 (C D7 (C D7 (C D12 (C D12 (C D51 (C D40 (C D20 (C D50 (C D15 (C D11 (C D61 (C D63 (C D16 (C D4 (C D20 (C D47 (C D15 (C D58 (C D27 (C D16 (C D4 (C D15 (C D56 (C D3 (C D57 (C D5 E)))))))))))))))))))))))))))))))))))))))))))))))))))))))))))))))).
Definition M3 : num := (C D42 (C D26 (C D59 (C D63 (C D63 (C D63 (C D63 (C D8 (C D23 (C D15 (C D60 (C D63 (C D47 (C D16 (C D6 (C D56 (C D62 (C D63 (C D60 (C D22 (C D10 (C D28 (C D56 (C D4 (C D0 (C D16 (C D37 (C D0 (C D53 (C D55 (C D10 (C D31 (C D28 (C D48 (C D37 (C D17 (C D1 (C D25 (C D14 (C D33 (C D22 (C D41 (C D17 (C D34 (C D8 (C D20 (C D29 (C D40 (C D32 (C D16 (C D60 (C D34 (C D24 (C D50 (C D34 (C D58 (C D41 (C D37 (C D20 (C D25 (C D43 (C D35 (C D37 (C D5 E)))))))))))))))))))))))))))))))))))))))))))))))))))))))))))))))).
Definition M4 : num := (C D42 (C D42 (C D59 (C D63 (C D63 (C D63 (C D63 (C D11 (C D31 (C D28 (C D60 (C D63 (C D63 (C D16 (C D1 (C D60 (C D62 (C D63 (C D59 (C D58 (C D24 (C D53 (C D63 (C D49 (C D47 (C D33 (C D44 (C D8 (C D43 (C D30 (C D61 (C D32 (C D59 (C D60 (C D1 (C D55 (C D5 (C D48 (C D21 (C D59 (C D32 (C D6 (C D48 (C D27 (C D60 (C D53 (C D42 (C D5 (C D4 (C D33 (C D39 (C D1 (C D29 (C D53 (C D53 (C D58 (C D55 (C D58 (C D36 (C D35 (C D30 (C D3 (C D18 (C D5 E)))))))))))))))))))))))))))))))))))))))))))))))))))))))))))))))).
Definition M5 : num := (C D42 (C D58 (C D59 (C D63 (C D63 (C D63 (C D63 (C D14 (C D39 (C D41 (C D60 (C D63 (C D15 (C D17 (C D60 (C D63 (C D62 (C D63 (C D58 (C D30 (C D39 (C D14 (C D7 (C D31 (C D31 (C D51 (C D51 (C D16 (C D33 (C D5 (C D48 (C D34 (C D26 (C D9 (C D30 (C D28 (C D10 (C D7 (C D29 (C D21 (C D43 (C D35 (C D14 (C D21 (C D48 (C D23 (C D56 (C D34 (C D39 (C D49 (C D18 (C D32 (C D33 (C D56 (C D8 (C D59 (C D5 (C D16 (C D53 (C D45 (C D17 (C D35 (C D62 (C D4 E)))))))))))))))))))))))))))))))))))))))))))))))))))))))))))))))).
Definition M6 : num := (C D42 (C D10 (C D60 (C D63 (C D63 (C D63 (C D63 (C D17 (C D47 (C D54 (C D60 (C D63 (C D31 (C D17 (C D55 (C D3 (C D63 (C D63 (C D57 (C D2 (C D54 (C D39 (C D14 (C D12 (C D15 (C D5 (C D59 (C D24 (C D23 (C D44 (C D34 (C D36 (C D57 (C D21 (C D58 (C D1 (C D15 (C D30 (C D36 (C D47 (C D53 (C D0 (C D45 (C D14 (C D36 (C D57 (C D5 (C D0 (C D11 (C D2 (C D62 (C D62 (C D37 (C D59 (C D27 (C D59 (C D19 (C D37 (C D5 (C D56 (C D4 (C D3 (C D43 (C D4 E)))))))))))))))))))))))))))))))))))))))))))))))))))))))))))))))).
Definition M7 : num := (C D42 (C D26 (C D60 (C D63 (C D63 (C D63 (C D63 (C D20 (C D55 (C D3 (C D61 (C D63 (C D47 (C D17 (C D50 (C D7 (C D63 (C D63 (C D56 (C D38 (C D4 (C D1 (C D22 (C D57 (C D62 (C D22 (C D2 (C D33 (C D13 (C D19 (C D21 (C D38 (C D24 (C D34 (C D22 (C D39 (C D19 (C D53 (C D43 (C D9 (C D0 (C D30 (C D11 (C D8 (C D24 (C D27 (C D19 (C D29 (C D46 (C D18 (C D41 (C D29 (C D42 (C D62 (C D46 (C D59 (C D33 (C D58 (C D21 (C D2 (C D56 (C D34 (C D23 (C D4 E)))))))))))))))))))))))))))))))))))))))))))))))))))))))))))))))).
Definition M8 : num := (C D42 (C D42 (C D60 (C D63 (C D63 (C D63 (C D63 (C D23 (C D63 (C D16 (C D61 (C D63 (C D63 (C D17 (C D45 (C D11 (C D63 (C D63 (C D55 (C D10 (C D19 (C D26 (C D29 (C D38 (C D46 (C D40 (C D9 (C D41 (C D3 (C D58 (C D7 (C D40 (C D55 (C D46 (C D50 (C D12 (C D24 (C D12 (C D51 (C D35 (C D10 (C D59 (C D41 (C D1 (C D12 (C D61 (C D32 (C D58 (C D17 (C D35 (C D20 (C D60 (C D46 (C D1 (C D2 (C D60 (C D47 (C D15 (C D38 (C D12 (C D43 (C D2 (C D4 (C D4 E)))))))))))))))))))))))))))))))))))))))))))))))))))))))))))))))).
Definition M9 : num := (C D42 (C D58 (C D60 (C D63 (C D63 (C D63 (C D63 (C D26 (C D7 (C D30 (C D61 (C D63 (C D15 (C D18 (C D40 (C D15 (C D63 (C D63 (C D54 (C D46 (C D33 (C D51 (C D36 (C D19 (C D30 (C D58 (C D16 (C D49 (C D57 (C D32 (C D58 (C D41 (C D22 (C D59 (C D14 (C D50 (C D28 (C D35 (C D58 (C D61 (C D20 (C D24 (C D8 (C D59 (C D63 (C D30 (C D46 (C D23 (C D53 (C D51 (C D63 (C D26 (C D51 (C D4 (C D21 (C D60 (C D61 (C D36 (C D54 (C D22 (C D30 (C D34 (C D48 (C D3 E)))))))))))))))))))))))))))))))))))))))))))))))))))))))))))))))).
Definition M10 : num := (C D42 (C D10 (C D61 (C D63 (C D63 (C D63 (C D63 (C D29 (C D15 (C D43 (C D61 (C D63 (C D31 (C D18 (C D35 (C D19 (C D63 (C D63 (C D53 (C D18 (C D48 (C D12 (C D44 (C D0 (C D14 (C D12 (C D24 (C D57 (C D47 (C D7 (C D45 (C D43 (C D53 (C D7 (C D43 (C D23 (C D33 (C D58 (C D1 (C D24 (C D31 (C D53 (C D38 (C D52 (C D51 (C D0 (C D60 (C D52 (C D24 (C D4 (C D43 (C D57 (C D55 (C D7 (C D40 (C D60 (C D11 (C D58 (C D6 (C D33 (C D17 (C D2 (C D29 (C D3 E)))))))))))))))))))))))))))))))))))))))))))))))))))))))))))))))).
Definition M11 : num := (C D42 (C D26 (C D61 (C D63 (C D63 (C D63 (C D63 (C D32 (C D23 (C D56 (C D61 (C D63 (C D47 (C D18 (C D30 (C D23 (C D63 (C D63 (C D52 (C D54 (C D62 (C D37 (C D51 (C D45 (C D61 (C D29 (C D31 (C D1 (C D38 (C D46 (C D31 (C D45 (C D20 (C D20 (C D7 (C D61 (C D37 (C D17 (C D9 (C D50 (C D41 (C D18 (C D5 (C D46 (C D39 (C D34 (C D9 (C D18 (C D60 (C D20 (C D22 (C D24 (C D60 (C D10 (C D59 (C D60 (C D25 (C D15 (C D23 (C D43 (C D4 (C D34 (C D9 (C D3 E)))))))))))))))))))))))))))))))))))))))))))))))))))))))))))))))).
Definition M12 : num := (C D42 (C D42 (C D61 (C D63 (C D63 (C D63 (C D63 (C D35 (C D31 (C D5 (C D62 (C D63 (C D63 (C D18 (C D25 (C D27 (C D63 (C D63 (C D51 (C D26 (C D13 (C D63 (C D58 (C D26 (C D45 (C D47 (C D38 (C D9 (C D28 (C D21 (C D18 (C D47 (C D51 (C D32 (C D35 (C D34 (C D42 (C D40 (C D16 (C D12 (C D52 (C D47 (C D35 (C D39 (C D27 (C D4 (C D23 (C D47 (C D31 (C D37 (C D1 (C D55 (C D0 (C D14 (C D14 (C D61 (C D39 (C D36 (C D39 (C D53 (C D55 (C D1 (C D54 (C D2 E)))))))))))))))))))))))))))))))))))))))))))))))))))))))))))))))).
Definition M13 : num := (C D42 (C D58 (C D61 (C D63 (C D63 (C D63 (C D63 (C D38 (C D39 (C D18 (C D62 (C D63 (C D15 (C D19 (C D20 (C D31 (C D63 (C D63 (C D50 (C D62 (C D27 (C D24 (C D2 (C D8 (C D29 (C D1 (C D46 (C D17 (C D18 (C D60 (C D4 (C D49 (C D18 (C D45 (C D63 (C D7 (C D47 (C D63 (C D23 (C D38 (C D62 (C D12 (C D2 (C D33 (C D15 (C D38 (C D36 (C D12 (C D3 (C D54 (C D44 (C D21 (C D5 (C D17 (C D33 (C D61 (C D53 (C D57 (C D55 (C D63 (C D42 (C D33 (C D34 (C D2 E)))))))))))))))))))))))))))))))))))))))))))))))))))))))))))))))).
Definition M14 : num := (C D42 (C D10 (C D62 (C D63 (C D63 (C D63 (C D63 (C D41 (C D47 (C D31 (C D62 (C D63 (C D31 (C D19 (C D15 (C D35 (C D63 (C D63 (C D49 (C D34 (C D42 (C D49 (C D9 (C D53 (C D12 (C D19 (C D53 (C D25 (C D8 (C D35 (C D55 (C D50 (C D49 (C D57 (C D27 (C D45 (C D51 (C D22 (C D31 (C D0 (C D9 (C D42 (C D32 (C D26 (C D3 (C D8 (C D50 (C D41 (C D38 (C D6 (C D24 (C D52 (C D9 (C D20 (C D52 (C D61 (C D3 (C D15 (C D8 (C D10 (C D30 (C D1 (C D15 (C D2 E)))))))))))))))))))))))))))))))))))))))))))))))))))))))))))))))).
Definition M15 : num := (C D42 (C D26 (C D62 (C D63 (C D63 (C D63 (C D63 (C D44 (C D55 (C D44 (C D62 (C D63 (C D47 (C D19 (C D10 (C D39 (C D63 (C D63 (C D48 (C D6 (C D57 (C D10 (C D17 (C D34 (C D60 (C D36 (C D60 (C D33 (C D62 (C D9 (C D42 (C D52 (C D16 (C D6 (C D56 (C D18 (C D56 (C D45 (C D38 (C D26 (C D19 (C D7 (C D63 (C D19 (C D55 (C D41 (C D63 (C D6 (C D10 (C D23 (C D3 (C D19 (C D14 (C D23 (C D7 (C D62 (C D17 (C D36 (C D24 (C D20 (C D17 (C D33 (C D59 (C D1 E)))))))))))))))))))))))))))))))))))))))))))))))))))))))))))))))).
Definition M16 : num := (C D42 (C D42 (C D62 (C D63 (C D63 (C D63 (C D63 (C D47 (C D63 (C D57 (C D62 (C D63 (C D63 (C D19 (C D5 (C D43 (C D63 (C D63 (C D47 (C D42 (C D7 (C D36 (C D24 (C D15 (C D44 (C D54 (C D3 (C D42 (C D52 (C D48 (C D28 (C D54 (C D47 (C D18 (C D20 (C D56 (C D60 (C D4 (C D46 (C D52 (C D29 (C D36 (C D29 (C D13 (C D43 (C D11 (C D13 (C D36 (C D45 (C D39 (C D46 (C D49 (C D18 (C D26 (C D26 (C D62 (C D31 (C D57 (C D40 (C D30 (C D4 (C D1 (C D40 (C D1 E)))))))))))))))))))))))))))))))))))))))))))))))))))))))))))))))).
Definition M17 : num := (C D42 (C D58 (C D62 (C D63 (C D63 (C D63 (C D63 (C D50 (C D7 (C D7 (C D63 (C D63 (C D15 (C D20 (C D0 (C D47 (C D63 (C D63 (C D46 (C D14 (C D22 (C D61 (C D31 (C D60 (C D27 (C D8 (C D11 (C D50 (C D42 (C D23 (C D15 (C D56 (C D14 (C D31 (C D48 (C D29 (C D1 (C D28 (C D53 (C D14 (C D40 (C D1 (C D60 (C D6 (C D31 (C D45 (C D26 (C D1 (C D17 (C D56 (C D25 (C D16 (C D23 (C D29 (C D45 (C D62 (C D45 (C D14 (C D57 (C D40 (C D55 (C D32 (C D20 (C D1 E)))))))))))))))))))))))))))))))))))))))))))))))))))))))))))))))).
Definition M18 : num := (C D42 (C D10 (C D63 (C D63 (C D63 (C D63 (C D63 (C D53 (C D15 (C D20 (C D63 (C D63 (C D31 (C D20 (C D59 (C D50 (C D63 (C D63 (C D45 (C D50 (C D36 (C D22 (C D39 (C D41 (C D11 (C D26 (C D18 (C D58 (C D32 (C D62 (C D1 (C D58 (C D45 (C D43 (C D12 (C D3 (C D6 (C D51 (C D60 (C D40 (C D50 (C D30 (C D26 (C D0 (C D19 (C D15 (C D40 (C D30 (C D52 (C D8 (C D5 (C D47 (C D27 (C D32 (C D0 (C D63 (C D59 (C D35 (C D9 (C D51 (C D42 (C D0 (C D1 (C D1 E)))))))))))))))))))))))))))))))))))))))))))))))))))))))))))))))).
Definition M19 : num := (C D42 (C D26 (C D63 (C D63 (C D63 (C D63 (C D63 (C D56 (C D23 (C D33 (C D63 (C D63 (C D47 (C D20 (C D54 (C D54 (C D63 (C D63 (C D44 (C D22 (C D51 (C D47 (C D46 (C D22 (C D59 (C D43 (C D25 (C D2 (C D23 (C D37 (C D52 (C D59 (C D12 (C D56 (C D40 (C D40 (C D10 (C D10 (C D4 (C D3 (C D61 (C D59 (C D56 (C D57 (C D6 (C D49 (C D53 (C D59 (C D23 (C D25 (C D48 (C D13 (C D32 (C D35 (C D19 (C D63 (C D9 (C D57 (C D25 (C D61 (C D29 (C D32 (C D45 E))))))))))))))))))))))))))))))))))))))))))))))))))))))))))))))).
Definition M20 : num := (C D42 (C D42 (C D63 (C D63 (C D63 (C D63 (C D63 (C D59 (C D31 (C D46 (C D63 (C D63 (C D63 (C D20 (C D49 (C D58 (C D63 (C D63 (C D43 (C D58 (C D1 (C D9 (C D54 (C D3 (C D43 (C D61 (C D32 (C D10 (C D13 (C D12 (C D39 (C D61 (C D43 (C D4 (C D5 (C D14 (C D15 (C D33 (C D11 (C D29 (C D7 (C D25 (C D23 (C D51 (C D58 (C D18 (C D3 (C D25 (C D59 (C D41 (C D27 (C D44 (C D36 (C D38 (C D38 (C D63 (C D23 (C D14 (C D42 (C D7 (C D17 (C D0 (C D26 E))))))))))))))))))))))))))))))))))))))))))))))))))))))))))))))).
Definition M21 : num := (C D42 (C D58 (C D63 (C D63 (C D63 (C D63 (C D63 (C D62 (C D39 (C D59 (C D63 (C D63 (C D15 (C D21 (C D44 (C D62 (C D63 (C D63 (C D42 (C D30 (C D16 (C D34 (C D61 (C D48 (C D26 (C D15 (C D40 (C D18 (C D3 (C D51 (C D25 (C D63 (C D10 (C D17 (C D33 (C D51 (C D19 (C D56 (C D18 (C D55 (C D17 (C D54 (C D53 (C D44 (C D46 (C D52 (C D16 (C D54 (C D30 (C D58 (C D6 (C D11 (C D41 (C D41 (C D57 (C D63 (C D37 (C D35 (C D58 (C D17 (C D4 (C D32 (C D6 E))))))))))))))))))))))))))))))))))))))))))))))))))))))))))))))).
Definition M22 : num := (C D21 (C D53 (C D58 (C D63 (C D63 (C D63 (C D63 (C D1 (C D47 (C D48 (C D59 (C D63 (C D31 (C D37 (C D60 (C D46 (C D62 (C D63 (C D41 (C D45 (C D61 (C D11 (C D39 (C D27 (C D59 (C D59 (C D62 (C D2 (C D12 (C D29 (C D63 (C D26 (C D41 (C D40 (C D14 (C D58 (C D11 (C D35 (C D18 (C D36 (C D19 (C D37 (C D10 (C D28 (C D15 (C D5 (C D19 (C D36 (C D56 (C D41 (C D44 (C D48 (C D56 (C D21 (C D54 (C D57 (C D51 (C D30 (C D46 (C D22 (C D9 (C D4 (C D19 (C D6 E)))))))))))))))))))))))))))))))))))))))))))))))))))))))))))))))).
Definition M23 : num := (C D21 (C D5 (C D59 (C D63 (C D63 (C D63 (C D63 (C D4 (C D55 (C D61 (C D59 (C D63 (C D47 (C D37 (C D55 (C D50 (C D62 (C D63 (C D40 (C D17 (C D12 (C D37 (C D46 (C D8 (C D43 (C D13 (C D6 (C D11 (C D2 (C D4 (C D50 (C D28 (C D8 (C D53 (C D42 (C D31 (C D16 (C D58 (C D25 (C D62 (C D29 (C D2 (C D41 (C D21 (C D3 (C D39 (C D32 (C D1 (C D28 (C D58 (C D23 (C D15 (C D61 (C D24 (C D9 (C D58 (C D1 (C D52 (C D62 (C D32 (C D60 (C D35 (C D63 (C D5 E)))))))))))))))))))))))))))))))))))))))))))))))))))))))))))))))).
Definition M24 : num := (C D21 (C D21 (C D59 (C D63 (C D63 (C D63 (C D63 (C D7 (C D63 (C D10 (C D60 (C D63 (C D63 (C D37 (C D50 (C D54 (C D62 (C D63 (C D39 (C D53 (C D26 (C D62 (C D53 (C D53 (C D26 (C D31 (C D13 (C D19 (C D56 (C D42 (C D36 (C D30 (C D39 (C D1 (C D7 (C D5 (C D21 (C D17 (C D33 (C D24 (C D40 (C D31 (C D7 (C D15 (C D55 (C D8 (C D46 (C D30 (C D63 (C D10 (C D3 (C D46 (C D1 (C D28 (C D28 (C D58 (C D15 (C D9 (C D15 (C D43 (C D47 (C D3 (C D44 (C D5 E)))))))))))))))))))))))))))))))))))))))))))))))))))))))))))))))).
Definition M25 : num := (C D21 (C D37 (C D59 (C D63 (C D63 (C D63 (C D63 (C D10 (C D7 (C D24 (C D60 (C D63 (C D15 (C D38 (C D45 (C D58 (C D62 (C D63 (C D38 (C D25 (C D41 (C D23 (C D61 (C D34 (C D10 (C D49 (C D20 (C D27 (C D46 (C D17 (C D23 (C D32 (C D6 (C D14 (C D35 (C D42 (C D25 (C D40 (C D40 (C D50 (C D50 (C D60 (C D37 (C D8 (C D43 (C D42 (C D59 (C D59 (C D34 (C D27 (C D46 (C D12 (C D6 (C D31 (C D47 (C D58 (C D29 (C D30 (C D31 (C D53 (C D34 (C D35 (C D24 (C D5 E)))))))))))))))))))))))))))))))))))))))))))))))))))))))))))))))).
Definition M26 : num := (C D21 (C D53 (C D59 (C D63 (C D63 (C D63 (C D63 (C D13 (C D15 (C D37 (C D60 (C D63 (C D31 (C D38 (C D40 (C D62 (C D62 (C D63 (C D37 (C D61 (C D55 (C D48 (C D4 (C D16 (C D58 (C D2 (C D28 (C D35 (C D36 (C D56 (C D9 (C D34 (C D37 (C D26 (C D63 (C D15 (C D30 (C D63 (C D47 (C D12 (C D61 (C D25 (C D4 (C D2 (C D31 (C D12 (C D9 (C D25 (C D6 (C D44 (C D25 (C D43 (C D10 (C D34 (C D2 (C D59 (C D43 (C D51 (C D47 (C D63 (C D21 (C D3 (C D5 (C D5 E)))))))))))))))))))))))))))))))))))))))))))))))))))))))))))))))).
Definition M27 : num := (C D21 (C D5 (C D60 (C D63 (C D63 (C D63 (C D63 (C D16 (C D23 (C D50 (C D60 (C D63 (C D47 (C D38 (C D35 (C D2 (C D63 (C D63 (C D36 (C D33 (C D6 (C D10 (C D12 (C D61 (C D41 (C D20 (C D35 (C D43 (C D26 (C D31 (C D60 (C D35 (C D4 (C D39 (C D27 (C D53 (C D34 (C D22 (C D55 (C D38 (C D7 (C D55 (C D34 (C D59 (C D18 (C D46 (C D22 (C D54 (C D41 (C D60 (C D4 (C D10 (C D15 (C D37 (C D21 (C D59 (C D57 (C D8 (C D0 (C D10 (C D9 (C D35 (C D49 (C D4 E)))))))))))))))))))))))))))))))))))))))))))))))))))))))))))))))).
Definition M28 : num := (C D21 (C D21 (C D60 (C D63 (C D63 (C D63 (C D63 (C D19 (C D31 (C D63 (C D60 (C D63 (C D63 (C D38 (C D30 (C D6 (C D63 (C D63 (C D35 (C D5 (C D21 (C D35 (C D19 (C D42 (C D25 (C D38 (C D42 (C D51 (C D16 (C D6 (C D47 (C D37 (C D35 (C D51 (C D55 (C D26 (C D39 (C D45 (C D62 (C D0 (C D18 (C D20 (C D1 (C D53 (C D6 (C D16 (C D36 (C D19 (C D13 (C D13 (C D48 (C D40 (C D19 (C D40 (C D40 (C D59 (C D7 (C D30 (C D16 (C D20 (C D60 (C D2 (C D30 (C D4 E)))))))))))))))))))))))))))))))))))))))))))))))))))))))))))))))).
Definition M29 : num := (C D21 (C D37 (C D60 (C D63 (C D63 (C D63 (C D63 (C D22 (C D39 (C D12 (C D61 (C D63 (C D15 (C D39 (C D25 (C D10 (C D63 (C D63 (C D34 (C D41 (C D35 (C D60 (C D26 (C D23 (C D9 (C D56 (C D49 (C D59 (C D6 (C D45 (C D33 (C D39 (C D2 (C D0 (C D20 (C D0 (C D44 (C D4 (C D6 (C D27 (C D28 (C D49 (C D31 (C D46 (C D58 (C D49 (C D49 (C D48 (C D48 (C D29 (C D27 (C D7 (C D24 (C D43 (C D59 (C D59 (C D21 (C D51 (C D32 (C D30 (C D47 (C D34 (C D10 (C D4 E)))))))))))))))))))))))))))))))))))))))))))))))))))))))))))))))).
Definition M30 : num := (C D21 (C D53 (C D60 (C D63 (C D63 (C D63 (C D63 (C D25 (C D47 (C D25 (C D61 (C D63 (C D31 (C D39 (C D20 (C D14 (C D63 (C D63 (C D33 (C D13 (C D50 (C D21 (C D34 (C D4 (C D57 (C D9 (C D57 (C D3 (C D61 (C D19 (C D20 (C D41 (C D33 (C D12 (C D48 (C D37 (C D48 (C D27 (C D13 (C D53 (C D38 (C D14 (C D62 (C D39 (C D46 (C D19 (C D63 (C D13 (C D20 (C D46 (C D6 (C D38 (C D28 (C D46 (C D14 (C D60 (C D35 (C D8 (C D49 (C D40 (C D34 (C D2 (C D55 (C D3 E)))))))))))))))))))))))))))))))))))))))))))))))))))))))))))))))).
Definition M31 : num := (C D21 (C D5 (C D61 (C D63 (C D63 (C D63 (C D63 (C D28 (C D55 (C D38 (C D61 (C D63 (C D47 (C D39 (C D15 (C D18 (C D63 (C D63 (C D32 (C D49 (C D0 (C D47 (C D41 (C D49 (C D40 (C D27 (C D0 (C D12 (C D51 (C D58 (C D6 (C D43 (C D0 (C D25 (C D12 (C D11 (C D53 (C D50 (C D20 (C D15 (C D49 (C D43 (C D28 (C D33 (C D34 (C D53 (C D12 (C D43 (C D55 (C D62 (C D49 (C D4 (C D33 (C D49 (C D33 (C D60 (C D49 (C D29 (C D1 (C D51 (C D21 (C D34 (C D35 (C D3 E)))))))))))))))))))))))))))))))))))))))))))))))))))))))))))))))).
Definition M32 : num := (C D21 (C D21 (C D61 (C D63 (C D63 (C D63 (C D63 (C D31 (C D63 (C D51 (C D61 (C D63 (C D63 (C D39 (C D10 (C D22 (C D63 (C D63 (C D31 (C D21 (C D15 (C D8 (C D49 (C D30 (C D24 (C D45 (C D7 (C D20 (C D41 (C D33 (C D57 (C D44 (C D31 (C D37 (C D40 (C D48 (C D57 (C D9 (C D28 (C D41 (C D59 (C D8 (C D59 (C D26 (C D22 (C D23 (C D26 (C D8 (C D27 (C D15 (C D29 (C D35 (C D37 (C D52 (C D52 (C D60 (C D63 (C D50 (C D17 (C D61 (C D8 (C D2 (C D16 (C D3 E)))))))))))))))))))))))))))))))))))))))))))))))))))))))))))))))).
Definition M33 : num := (C D21 (C D37 (C D61 (C D63 (C D63 (C D63 (C D63 (C D34 (C D7 (C D1 (C D62 (C D63 (C D15 (C D40 (C D5 (C D26 (C D63 (C D63 (C D30 (C D57 (C D29 (C D33 (C D56 (C D11 (C D8 (C D63 (C D14 (C D28 (C D31 (C D8 (C D44 (C D46 (C D62 (C D49 (C D4 (C D22 (C D62 (C D32 (C D35 (C D3 (C D6 (C D38 (C D25 (C D20 (C D10 (C D57 (C D39 (C D37 (C D62 (C D31 (C D8 (C D2 (C D42 (C D55 (C D7 (C D61 (C D13 (C D8 (C D34 (C D7 (C D60 (C D33 (C D60 (C D2 E)))))))))))))))))))))))))))))))))))))))))))))))))))))))))))))))).
Definition M34 : num := (C D21 (C D53 (C D61 (C D63 (C D63 (C D63 (C D63 (C D37 (C D15 (C D14 (C D62 (C D63 (C D31 (C D40 (C D0 (C D30 (C D63 (C D63 (C D29 (C D29 (C D44 (C D58 (C D63 (C D56 (C D55 (C D16 (C D22 (C D36 (C D21 (C D47 (C D30 (C D48 (C D29 (C D62 (C D32 (C D59 (C D2 (C D56 (C D42 (C D29 (C D16 (C D3 (C D56 (C D13 (C D62 (C D26 (C D53 (C D2 (C D34 (C D48 (C D51 (C D32 (C D46 (C D58 (C D26 (C D61 (C D27 (C D29 (C D50 (C D17 (C D47 (C D1 (C D41 (C D2 E)))))))))))))))))))))))))))))))))))))))))))))))))))))))))))))))).
Definition M35 : num := (C D21 (C D5 (C D62 (C D63 (C D63 (C D63 (C D63 (C D40 (C D23 (C D27 (C D62 (C D63 (C D47 (C D40 (C D59 (C D33 (C D63 (C D63 (C D28 (C D1 (C D59 (C D19 (C D7 (C D38 (C D39 (C D34 (C D29 (C D44 (C D11 (C D22 (C D17 (C D50 (C D60 (C D10 (C D61 (C D32 (C D7 (C D15 (C D50 (C D55 (C D26 (C D32 (C D22 (C D7 (C D50 (C D60 (C D2 (C D32 (C D5 (C D1 (C D31 (C D63 (C D50 (C D61 (C D45 (C D61 (C D41 (C D50 (C D2 (C D28 (C D34 (C D33 (C D21 (C D2 E)))))))))))))))))))))))))))))))))))))))))))))))))))))))))))))))).
Definition M36 : num := (C D21 (C D21 (C D62 (C D63 (C D63 (C D63 (C D63 (C D43 (C D31 (C D40 (C D62 (C D63 (C D63 (C D40 (C D54 (C D37 (C D63 (C D63 (C D27 (C D37 (C D9 (C D45 (C D14 (C D19 (C D23 (C D52 (C D36 (C D52 (C D1 (C D61 (C D3 (C D52 (C D27 (C D23 (C D25 (C D6 (C D12 (C D38 (C D57 (C D17 (C D37 (C D61 (C D52 (C D0 (C D38 (C D30 (C D16 (C D61 (C D40 (C D17 (C D10 (C D30 (C D55 (C D0 (C D1 (C D62 (C D55 (C D7 (C D19 (C D38 (C D21 (C D1 (C D2 (C D2 E)))))))))))))))))))))))))))))))))))))))))))))))))))))))))))))))).
Definition M37 : num := (C D21 (C D37 (C D62 (C D63 (C D63 (C D63 (C D63 (C D46 (C D39 (C D53 (C D62 (C D63 (C D15 (C D41 (C D49 (C D41 (C D63 (C D63 (C D26 (C D9 (C D24 (C D6 (C D22 (C D0 (C D7 (C D6 (C D44 (C D60 (C D55 (C D35 (C D54 (C D53 (C D58 (C D35 (C D53 (C D43 (C D16 (C D61 (C D0 (C D44 (C D47 (C D26 (C D19 (C D58 (C D25 (C D0 (C D30 (C D26 (C D12 (C D34 (C D53 (C D60 (C D59 (C D3 (C D20 (C D62 (C D5 (C D29 (C D35 (C D48 (C D8 (C D33 (C D46 (C D1 E)))))))))))))))))))))))))))))))))))))))))))))))))))))))))))))))).
Definition M38 : num := (C D21 (C D53 (C D62 (C D63 (C D63 (C D63 (C D63 (C D49 (C D47 (C D2 (C D63 (C D63 (C D31 (C D41 (C D44 (C D45 (C D63 (C D63 (C D25 (C D45 (C D38 (C D31 (C D29 (C D45 (C D54 (C D23 (C D51 (C D4 (C D46 (C D10 (C D41 (C D55 (C D25 (C D48 (C D17 (C D17 (C D21 (C D20 (C D8 (C D6 (C D58 (C D55 (C D49 (C D51 (C D13 (C D34 (C D43 (C D55 (C D47 (C D50 (C D32 (C D27 (C D0 (C D7 (C D39 (C D62 (C D19 (C D50 (C D51 (C D58 (C D59 (C D0 (C D27 (C D1 E)))))))))))))))))))))))))))))))))))))))))))))))))))))))))))))))).
Definition M39 : num := (C D21 (C D5 (C D63 (C D63 (C D63 (C D63 (C D63 (C D52 (C D55 (C D15 (C D63 (C D63 (C D47 (C D41 (C D39 (C D49 (C D63 (C D63 (C D24 (C D17 (C D53 (C D56 (C D36 (C D26 (C D38 (C D41 (C D58 (C D12 (C D36 (C D49 (C D27 (C D57 (C D56 (C D60 (C D45 (C D54 (C D25 (C D43 (C D15 (C D32 (C D4 (C D21 (C D16 (C D45 (C D1 (C D4 (C D57 (C D20 (C D19 (C D3 (C D12 (C D58 (C D4 (C D10 (C D58 (C D62 (C D33 (C D7 (C D4 (C D5 (C D47 (C D32 (C D7 (C D1 E)))))))))))))))))))))))))))))))))))))))))))))))))))))))))))))))).
Definition M40 : num := (C D21 (C D21 (C D63 (C D63 (C D63 (C D63 (C D63 (C D55 (C D63 (C D28 (C D63 (C D63 (C D63 (C D41 (C D34 (C D53 (C D63 (C D63 (C D23 (C D53 (C D3 (C D18 (C D44 (C D7 (C D22 (C D59 (C D1 (C D21 (C D26 (C D24 (C D14 (C D59 (C D23 (C D9 (C D10 (C D28 (C D30 (C D2 (C D23 (C D58 (C D14 (C D50 (C D46 (C D38 (C D53 (C D37 (C D6 (C D50 (C D54 (C D19 (C D55 (C D24 (C D9 (C D13 (C D13 (C D63 (C D47 (C D28 (C D20 (C D15 (C D34 (C D0 (C D52 E))))))))))))))))))))))))))))))))))))))))))))))))))))))))))))))).
Definition M41 : num := (C D21 (C D37 (C D63 (C D63 (C D63 (C D63 (C D63 (C D58 (C D7 (C D42 (C D63 (C D63 (C D15 (C D42 (C D29 (C D57 (C D63 (C D63 (C D22 (C D25 (C D18 (C D43 (C D51 (C D52 (C D5 (C D13 (C D9 (C D29 (C D16 (C D63 (C D0 (C D61 (C D54 (C D21 (C D38 (C D1 (C D35 (C D25 (C D30 (C D20 (C D25 (C D15 (C D13 (C D32 (C D41 (C D7 (C D20 (C D15 (C D26 (C D36 (C D34 (C D55 (C D13 (C D16 (C D32 (C D63 (C D61 (C D49 (C D36 (C D25 (C D21 (C D32 (C D32 E))))))))))))))))))))))))))))))))))))))))))))))))))))))))))))))).
Definition M42 : num := (C D21 (C D53 (C D63 (C D63 (C D63 (C D63 (C D63 (C D61 (C D15 (C D55 (C D63 (C D63 (C D31 (C D42 (C D24 (C D61 (C D63 (C D63 (C D21 (C D61 (C D32 (C D4 (C D59 (C D33 (C D53 (C D30 (C D16 (C D37 (C D6 (C D38 (C D51 (C D62 (C D21 (C D34 (C D2 (C D39 (C D39 (C D48 (C D37 (C D46 (C D35 (C D44 (C D43 (C D25 (C D29 (C D41 (C D33 (C D44 (C D61 (C D52 (C D13 (C D22 (C D18 (C D19 (C D51 (C D63 (C D11 (C D7 (C D53 (C D35 (C D8 (C D0 (C D13 E))))))))))))))))))))))))))))))))))))))))))))))))))))))))))))))).
Definition M43 : num := (C D0 (C D48 (C D58 (C D63 (C D63 (C D63 (C D63 (C D0 (C D23 (C D44 (C D59 (C D63 (C D47 (C D58 (C D40 (C D45 (C D62 (C D63 (C D20 (C D12 (C D14 (C D46 (C D36 (C D12 (C D22 (C D11 (C D39 (C D21 (C D15 (C D16 (C D25 (C D26 (C D52 (C D57 (C D47 (C D45 (C D31 (C D27 (C D37 (C D27 (C D37 (C D27 (C D0 (C D9 (C D62 (C D57 (C D35 (C D26 (C D23 (C D36 (C D51 (C D59 (C D33 (C D63 (C D47 (C D57 (C D25 (C D2 (C D41 (C D40 (C D13 (C D36 (C D25 (C D6 E)))))))))))))))))))))))))))))))))))))))))))))))))))))))))))))))).
Definition M44 : num := (C D0 (C D0 (C D59 (C D63 (C D63 (C D63 (C D63 (C D3 (C D31 (C D57 (C D59 (C D63 (C D63 (C D58 (C D35 (C D49 (C D62 (C D63 (C D19 (C D48 (C D28 (C D7 (C D44 (C D57 (C D5 (C D29 (C D46 (C D29 (C D5 (C D55 (C D11 (C D28 (C D19 (C D6 (C D12 (C D19 (C D36 (C D50 (C D44 (C D53 (C D47 (C D56 (C D30 (C D2 (C D50 (C D27 (C D49 (C D55 (C D58 (C D52 (C D30 (C D26 (C D38 (C D2 (C D3 (C D58 (C D39 (C D23 (C D57 (C D50 (C D0 (C D4 (C D6 (C D6 E)))))))))))))))))))))))))))))))))))))))))))))))))))))))))))))))).
Definition M45 : num := (C D0 (C D16 (C D59 (C D63 (C D63 (C D63 (C D63 (C D6 (C D39 (C D6 (C D60 (C D63 (C D15 (C D59 (C D30 (C D53 (C D62 (C D63 (C D18 (C D20 (C D43 (C D32 (C D51 (C D38 (C D53 (C D46 (C D53 (C D37 (C D59 (C D29 (C D62 (C D29 (C D50 (C D18 (C D40 (C D56 (C D40 (C D9 (C D52 (C D15 (C D58 (C D21 (C D61 (C D59 (C D37 (C D61 (C D62 (C D20 (C D30 (C D5 (C D10 (C D57 (C D42 (C D5 (C D22 (C D58 (C D53 (C D44 (C D9 (C D61 (C D51 (C D35 (C D50 (C D5 E)))))))))))))))))))))))))))))))))))))))))))))))))))))))))))))))).
Definition M46 : num := (C D0 (C D32 (C D59 (C D63 (C D63 (C D63 (C D63 (C D9 (C D47 (C D19 (C D60 (C D63 (C D31 (C D59 (C D25 (C D57 (C D62 (C D63 (C D17 (C D56 (C D57 (C D57 (C D58 (C D19 (C D37 (C D0 (C D61 (C D45 (C D49 (C D4 (C D49 (C D31 (C D17 (C D31 (C D4 (C D30 (C D45 (C D32 (C D59 (C D41 (C D4 (C D51 (C D27 (C D53 (C D25 (C D31 (C D12 (C D50 (C D1 (C D22 (C D53 (C D23 (C D47 (C D8 (C D41 (C D58 (C D3 (C D2 (C D26 (C D7 (C D39 (C D3 (C D31 (C D5 E)))))))))))))))))))))))))))))))))))))))))))))))))))))))))))))))).
Definition M47 : num := (C D0 (C D48 (C D59 (C D63 (C D63 (C D63 (C D63 (C D12 (C D55 (C D32 (C D60 (C D63 (C D47 (C D59 (C D20 (C D61 (C D62 (C D63 (C D16 (C D28 (C D8 (C D19 (C D2 (C D1 (C D21 (C D18 (C D4 (C D54 (C D39 (C D43 (C D35 (C D33 (C D48 (C D43 (C D32 (C D3 (C D50 (C D55 (C D2 (C D4 (C D15 (C D16 (C D58 (C D46 (C D13 (C D1 (C D26 (C D15 (C D37 (C D38 (C D32 (C D54 (C D51 (C D11 (C D60 (C D58 (C D17 (C D23 (C D42 (C D17 (C D26 (C D35 (C D11 (C D5 E)))))))))))))))))))))))))))))))))))))))))))))))))))))))))))))))).
Definition M48 : num := (C D0 (C D0 (C D60 (C D63 (C D63 (C D63 (C D63 (C D15 (C D63 (C D45 (C D60 (C D63 (C D63 (C D59 (C D15 (C D1 (C D63 (C D63 (C D15 (C D0 (C D23 (C D44 (C D9 (C D46 (C D4 (C D36 (C D11 (C D62 (C D29 (C D18 (C D22 (C D35 (C D15 (C D56 (C D60 (C D40 (C D54 (C D14 (C D10 (C D30 (C D25 (C D45 (C D24 (C D40 (C D1 (C D35 (C D39 (C D44 (C D8 (C D55 (C D11 (C D21 (C D56 (C D14 (C D15 (C D59 (C D31 (C D44 (C D58 (C D27 (C D13 (C D3 (C D56 (C D4 E)))))))))))))))))))))))))))))))))))))))))))))))))))))))))))))))).
Definition M49 : num := (C D0 (C D16 (C D60 (C D63 (C D63 (C D63 (C D63 (C D18 (C D7 (C D59 (C D60 (C D63 (C D15 (C D60 (C D10 (C D5 (C D63 (C D63 (C D14 (C D36 (C D37 (C D5 (C D17 (C D27 (C D52 (C D53 (C D18 (C D6 (C D20 (C D57 (C D8 (C D37 (C D46 (C D4 (C D25 (C D14 (C D59 (C D37 (C D17 (C D56 (C D35 (C D10 (C D55 (C D33 (C D53 (C D4 (C D53 (C D9 (C D44 (C D7 (C D55 (C D51 (C D60 (C D17 (C D34 (C D59 (C D45 (C D1 (C D11 (C D38 (C D0 (C D35 (C D36 (C D4 E)))))))))))))))))))))))))))))))))))))))))))))))))))))))))))))))).
Definition M50 : num := (C D0 (C D32 (C D60 (C D63 (C D63 (C D63 (C D63 (C D21 (C D15 (C D8 (C D61 (C D63 (C D31 (C D60 (C D5 (C D9 (C D63 (C D63 (C D13 (C D8 (C D52 (C D30 (C D24 (C D8 (C D36 (C D7 (C D26 (C D14 (C D10 (C D32 (C D59 (C D38 (C D13 (C D17 (C D53 (C D51 (C D63 (C D60 (C D24 (C D18 (C D46 (C D39 (C D21 (C D27 (C D41 (C D38 (C D2 (C D39 (C D15 (C D24 (C D34 (C D18 (C D1 (C D21 (C D53 (C D59 (C D59 (C D22 (C D27 (C D48 (C D51 (C D2 (C D17 (C D4 E)))))))))))))))))))))))))))))))))))))))))))))))))))))))))))))))).
Definition M51 : num := (C D0 (C D48 (C D60 (C D63 (C D63 (C D63 (C D63 (C D24 (C D23 (C D21 (C D61 (C D63 (C D47 (C D60 (C D0 (C D13 (C D63 (C D63 (C D12 (C D44 (C D2 (C D56 (C D31 (C D53 (C D19 (C D25 (C D33 (C D22 (C D0 (C D7 (C D46 (C D40 (C D44 (C D29 (C D17 (C D25 (C D4 (C D20 (C D32 (C D44 (C D56 (C D4 (C D52 (C D20 (C D29 (C D8 (C D16 (C D4 (C D51 (C D40 (C D13 (C D49 (C D5 (C D24 (C D8 (C D60 (C D9 (C D44 (C D43 (C D58 (C D38 (C D34 (C D61 (C D3 E)))))))))))))))))))))))))))))))))))))))))))))))))))))))))))))))).
Definition M52 : num := (C D0 (C D0 (C D61 (C D63 (C D63 (C D63 (C D63 (C D27 (C D31 (C D34 (C D61 (C D63 (C D63 (C D60 (C D59 (C D16 (C D63 (C D63 (C D11 (C D16 (C D17 (C D17 (C D39 (C D34 (C D3 (C D43 (C D40 (C D30 (C D54 (C D45 (C D32 (C D42 (C D11 (C D42 (C D45 (C D62 (C D8 (C D43 (C D39 (C D6 (C D3 (C D34 (C D18 (C D14 (C D17 (C D42 (C D29 (C D33 (C D22 (C D57 (C D56 (C D15 (C D10 (C D27 (C D27 (C D60 (C D23 (C D1 (C D60 (C D4 (C D26 (C D2 (C D42 (C D3 E)))))))))))))))))))))))))))))))))))))))))))))))))))))))))))))))).
Definition M53 : num := (C D0 (C D16 (C D61 (C D63 (C D63 (C D63 (C D63 (C D30 (C D39 (C D47 (C D61 (C D63 (C D15 (C D61 (C D54 (C D20 (C D63 (C D63 (C D10 (C D52 (C D31 (C D42 (C D46 (C D15 (C D51 (C D60 (C D47 (C D38 (C D44 (C D20 (C D19 (C D44 (C D42 (C D54 (C D9 (C D36 (C D13 (C D2 (C D47 (C D32 (C D13 (C D63 (C D48 (C D7 (C D5 (C D12 (C D43 (C D62 (C D57 (C D9 (C D36 (C D46 (C D14 (C D30 (C D46 (C D60 (C D37 (C D22 (C D12 (C D15 (C D13 (C D34 (C D22 (C D3 E)))))))))))))))))))))))))))))))))))))))))))))))))))))))))))))))).
Definition M54 : num := (C D0 (C D32 (C D61 (C D63 (C D63 (C D63 (C D63 (C D33 (C D47 (C D60 (C D61 (C D63 (C D31 (C D61 (C D49 (C D24 (C D63 (C D63 (C D9 (C D24 (C D46 (C D3 (C D54 (C D60 (C D34 (C D14 (C D55 (C D46 (C D34 (C D59 (C D5 (C D46 (C D9 (C D3 (C D38 (C D9 (C D18 (C D25 (C D54 (C D58 (C D23 (C D28 (C D15 (C D1 (C D57 (C D45 (C D56 (C D27 (C D29 (C D26 (C D15 (C D13 (C D19 (C D33 (C D1 (C D61 (C D51 (C D43 (C D28 (C D25 (C D0 (C D2 (C D3 (C D3 E)))))))))))))))))))))))))))))))))))))))))))))))))))))))))))))))).
Definition M55 : num := (C D0 (C D48 (C D61 (C D63 (C D63 (C D63 (C D63 (C D36 (C D55 (C D9 (C D62 (C D63 (C D47 (C D61 (C D44 (C D28 (C D63 (C D63 (C D8 (C D60 (C D60 (C D28 (C D61 (C D41 (C D18 (C D32 (C D62 (C D54 (C D24 (C D34 (C D56 (C D47 (C D40 (C D15 (C D2 (C D47 (C D22 (C D48 (C D61 (C D20 (C D34 (C D57 (C D45 (C D58 (C D44 (C D15 (C D6 (C D57 (C D0 (C D43 (C D58 (C D43 (C D23 (C D36 (C D20 (C D61 (C D1 (C D1 (C D45 (C D35 (C D51 (C D33 (C D47 (C D2 E)))))))))))))))))))))))))))))))))))))))))))))))))))))))))))))))).
Definition M56 : num := (C D0 (C D0 (C D62 (C D63 (C D63 (C D63 (C D63 (C D39 (C D63 (C D22 (C D62 (C D63 (C D63 (C D61 (C D39 (C D32 (C D63 (C D63 (C D7 (C D32 (C D11 (C D54 (C D4 (C D23 (C D2 (C D50 (C D5 (C D63 (C D14 (C D9 (C D43 (C D49 (C D7 (C D28 (C D30 (C D20 (C D27 (C D7 (C D5 (C D47 (C D44 (C D22 (C D12 (C D52 (C D32 (C D49 (C D19 (C D22 (C D36 (C D59 (C D37 (C D10 (C D28 (C D39 (C D39 (C D61 (C D15 (C D22 (C D61 (C D45 (C D38 (C D1 (C D28 (C D2 E)))))))))))))))))))))))))))))))))))))))))))))))))))))))))))))))).
Definition M57 : num := (C D0 (C D16 (C D62 (C D63 (C D63 (C D63 (C D63 (C D42 (C D7 (C D36 (C D62 (C D63 (C D15 (C D62 (C D34 (C D36 (C D63 (C D63 (C D6 (C D4 (C D26 (C D15 (C D12 (C D4 (C D50 (C D3 (C D13 (C D7 (C D5 (C D48 (C D29 (C D51 (C D38 (C D40 (C D58 (C D57 (C D31 (C D30 (C D12 (C D9 (C D55 (C D51 (C D42 (C D45 (C D20 (C D19 (C D33 (C D51 (C D7 (C D12 (C D17 (C D41 (C D32 (C D42 (C D58 (C D61 (C D29 (C D43 (C D13 (C D56 (C D25 (C D33 (C D8 (C D2 E)))))))))))))))))))))))))))))))))))))))))))))))))))))))))))))))).
Definition M58 : num := (C D0 (C D32 (C D62 (C D63 (C D63 (C D63 (C D63 (C D45 (C D15 (C D49 (C D62 (C D63 (C D31 (C D62 (C D29 (C D40 (C D63 (C D63 (C D5 (C D40 (C D40 (C D40 (C D19 (C D49 (C D33 (C D21 (C D20 (C D15 (C D59 (C D22 (C D16 (C D53 (C D5 (C D53 (C D22 (C D31 (C D36 (C D53 (C D19 (C D35 (C D1 (C D17 (C D9 (C D39 (C D8 (C D53 (C D46 (C D16 (C D43 (C D28 (C D60 (C D7 (C D37 (C D45 (C D13 (C D62 (C D43 (C D0 (C D30 (C D2 (C D13 (C D1 (C D53 (C D1 E)))))))))))))))))))))))))))))))))))))))))))))))))))))))))))))))).
Definition M59 : num := (C D0 (C D48 (C D62 (C D63 (C D63 (C D63 (C D63 (C D48 (C D23 (C D62 (C D62 (C D63 (C D47 (C D62 (C D24 (C D44 (C D63 (C D63 (C D4 (C D12 (C D55 (C D1 (C D27 (C D30 (C D17 (C D39 (C D27 (C D23 (C D49 (C D61 (C D2 (C D55 (C D36 (C D1 (C D51 (C D4 (C D41 (C D12 (C D27 (C D61 (C D11 (C D46 (C D39 (C D32 (C D60 (C D22 (C D60 (C D45 (C D14 (C D45 (C D39 (C D38 (C D41 (C D48 (C D32 (C D62 (C D57 (C D21 (C D46 (C D12 (C D0 (C D33 (C D33 (C D1 E)))))))))))))))))))))))))))))))))))))))))))))))))))))))))))))))).
Definition M60 : num := (C D0 (C D0 (C D63 (C D63 (C D63 (C D63 (C D63 (C D51 (C D31 (C D11 (C D63 (C D63 (C D63 (C D62 (C D19 (C D48 (C D63 (C D63 (C D3 (C D48 (C D5 (C D27 (C D34 (C D11 (C D1 (C D57 (C D34 (C D31 (C D39 (C D36 (C D53 (C D56 (C D3 (C D14 (C D15 (C D42 (C D45 (C D35 (C D34 (C D23 (C D22 (C D11 (C D6 (C D26 (C D48 (C D56 (C D9 (C D11 (C D50 (C D61 (C D18 (C D5 (C D46 (C D51 (C D51 (C D62 (C D7 (C D43 (C D62 (C D22 (C D51 (C D0 (C D14 (C D1 E)))))))))))))))))))))))))))))))))))))))))))))))))))))))))))))))).
Definition M61 : num := (C D0 (C D16 (C D63 (C D63 (C D63 (C D63 (C D63 (C D54 (C D39 (C D24 (C D63 (C D63 (C D15 (C D63 (C D14 (C D52 (C D63 (C D63 (C D2 (C D20 (C D20 (C D52 (C D41 (C D56 (C D48 (C D10 (C D42 (C D39 (C D29 (C D11 (C D40 (C D58 (C D34 (C D26 (C D43 (C D15 (C D50 (C D58 (C D41 (C D49 (C D32 (C D40 (C D36 (C D19 (C D36 (C D26 (C D23 (C D40 (C D21 (C D14 (C D62 (C D35 (C D50 (C D54 (C D6 (C D63 (C D21 (C D0 (C D15 (C D33 (C D38 (C D32 (C D58 E))))))))))))))))))))))))))))))))))))))))))))))))))))))))))))))).
Definition M62 : num := (C D0 (C D32 (C D63 (C D63 (C D63 (C D63 (C D63 (C D57 (C D47 (C D37 (C D63 (C D63 (C D31 (C D63 (C D9 (C D56 (C D63 (C D63 (C D1 (C D56 (C D34 (C D13 (C D49 (C D37 (C D32 (C D28 (C D49 (C D47 (C D19 (C D50 (C D26 (C D60 (C D1 (C D39 (C D7 (C D53 (C D54 (C D17 (C D49 (C D11 (C D43 (C D5 (C D3 (C D13 (C D24 (C D60 (C D36 (C D5 (C D57 (C D30 (C D41 (C D2 (C D55 (C D57 (C D25 (C D63 (C D35 (C D21 (C D31 (C D43 (C D25 (C D0 (C D39 E))))))))))))))))))))))))))))))))))))))))))))))))))))))))))))))).
Definition M63 : num := (C D0 (C D48 (C D63 (C D63 (C D63 (C D63 (C D63 (C D60 (C D55 (C D50 (C D63 (C D63 (C D47 (C D63 (C D4 (C D60 (C D63 (C D63 (C D0 (C D28 (C D49 (C D38 (C D56 (C D18 (C D16 (C D46 (C D56 (C D55 (C D9 (C D25 (C D13 (C D62 (C D32 (C D51 (C D35 (C D26 (C D59 (C D40 (C D56 (C D37 (C D53 (C D34 (C D33 (C D6 (C D12 (C D30 (C D50 (C D34 (C D28 (C D47 (C D20 (C D33 (C D59 (C D60 (C D44 (C D63 (C D49 (C D42 (C D47 (C D53 (C D12 (C D32 (C D19 E))))))))))))))))))))))))))))))))))))))))))))))))))))))))))))))).
(** one digit of a Montgomery reduction *)
Definition red (t : num) : num :=
  match t with
  | E => E
  | C d t => match d with D0 => t
    | D1 => add1 t M1 | D2 => add1 t M2 | D3 => add1 t M3 | D4 => add1 t M4 | D5 => add1 t M5 | D6 => add1 t M6 | D7 => add1 t M7 | D8 => add1 t M8
    | D9 => add1 t M9 | D10 => add1 t M10 | D11 => add1 t M11 | D12 => add1 t M12 | D13 => add1 t M13 | D14 => add1 t M14 | D15 => add1 t M15 | D16 => add1 t M16
    | D17 => add1 t M17 | D18 => add1 t M18 | D19 => add1 t M19 | D20 => add1 t M20 | D21 => add1 t M21 | D22 => add1 t M22 | D23 => add1 t M23 | D24 => add1 t M24
    | D25 => add1 t M25 | D26 => add1 t M26 | D27 => add1 t M27 | D28 => add1 t M28 | D29 => add1 t M29 | D30 => add1 t M30 | D31 => add1 t M31 | D32 => add1 t M32
    | D33 => add1 t M33 | D34 => add1 t M34 | D35 => add1 t M35 | D36 => add1 t M36 | D37 => add1 t M37 | D38 => add1 t M38 | D39 => add1 t M39 | D40 => add1 t M40
    | D41 => add1 t M41 | D42 => add1 t M42 | D43 => add1 t M43 | D44 => add1 t M44 | D45 => add1 t M45 | D46 => add1 t M46 | D47 => add1 t M47 | D48 => add1 t M48
    | D49 => add1 t M49 | D50 => add1 t M50 | D51 => add1 t M51 | D52 => add1 t M52 | D53 => add1 t M53 | D54 => add1 t M54 | D55 => add1 t M55 | D56 => add1 t M56
    | D57 => add1 t M57 | D58 => add1 t M58 | D59 => add1 t M59 | D60 => add1 t M60 | D61 => add1 t M61 | D62 => add1 t M62 | D63 => add1 t M63
    end
  end.
Definition csub (t : num) : num := let s := add1 t CP in if over 64 s then low 64 s else t.
Definition dadd (x y : num) : num := csub (add0 x y).
Definition dsub (x y : num) : num := let s := add1 x (cpl 64 y) in if over 64 s then low 64 s else low 64 (add0 s NP).
Section Rounds.
Variables (t1 t2 t3 t4 t5 t6 t7 t8 t9 t10 t11 t12 t13 t14 t15 t16 t17 t18 t19 t20 t21 t22 t23 t24 t25 t26 t27 t28 t29 t30 t31 t32 t33 t34 t35 t36 t37 t38 t39 t40 t41 t42 t43 t44 t45 t46 t47 t48 t49 t50 t51 t52 t53 t54 t55 t56 t57 t58 t59 t60 t61 t62 t63 : num).
Fixpoint go (n : nat) (a acc : num) {struct n} : num :=
  match n with O => acc | S n =>
  match a with
  | E => let w := red acc in if full w then go n E w else E
  | C d a => match d with D0 => let w := red acc in if full w then go n a w else E
    | D1 => let w := red (add0 acc t1) in if full w then go n a w else E | D2 => let w := red (add0 acc t2) in if full w then go n a w else E
    | D3 => let w := red (add0 acc t3) in if full w then go n a w else E | D4 => let w := red (add0 acc t4) in if full w then go n a w else E
    | D5 => let w := red (add0 acc t5) in if full w then go n a w else E | D6 => let w := red (add0 acc t6) in if full w then go n a w else E
    | D7 => let w := red (add0 acc t7) in if full w then go n a w else E | D8 => let w := red (add0 acc t8) in if full w then go n a w else E
    | D9 => let w := red (add0 acc t9) in if full w then go n a w else E | D10 => let w := red (add0 acc t10) in if full w then go n a w else E
    | D11 => let w := red (add0 acc t11) in if full w then go n a w else E | D12 => let w := red (add0 acc t12) in if full w then go n a w else E
    | D13 => let w := red (add0 acc t13) in if full w then go n a w else E | D14 => let w := red (add0 acc t14) in if full w then go n a w else E
    | D15 => let w := red (add0 acc t15) in if full w then go n a w else E | D16 => let w := red (add0 acc t16) in if full w then go n a w else E
    | D17 => let w := red (add0 acc t17) in if full w then go n a w else E | D18 => let w := red (add0 acc t18) in if full w then go n a w else E
    | D19 => let w := red (add0 acc t19) in if full w then go n a w else E | D20 => let w := red (add0 acc t20) in if full w then go n a w else E
    | D21 => let w := red (add0 acc t21) in if full w then go n a w else E | D22 => let w := red (add0 acc t22) in if full w then go n a w else E
    | D23 => let w := red (add0 acc t23) in if full w then go n a w else E | D24 => let w := red (add0 acc t24) in if full w then go n a w else E
    | D25 => let w := red (add0 acc t25) in if full w then go n a w else E | D26 => let w := red (add0 acc t26) in if full w then go n a w else E
    | D27 => let w := red (add0 acc t27) in if full w then go n a w else E | D28 => let w := red (add0 acc t28) in if full w then go n a w else E
    | D29 => let w := red (add0 acc t29) in if full w then go n a w else E | D30 => let w := red (add0 acc t30) in if full w then go n a w else E
    | D31 => let w := red (add0 acc t31) in if full w then go n a w else E | D32 => let w := red (add0 acc t32) in if full w then go n a w else E
    | D33 => let w := red (add0 acc t33) in if full w then go n a w else E | D34 => let w := red (add0 acc t34) in if full w then go n a w else E
    | D35 => let w := red (add0 acc t35) in if full w then go n a w else E | D36 => let w := red (add0 acc t36) in if full w then go n a w else E
    | D37 => let w := red (add0 acc t37) in if full w then go n a w else E | D38 => let w := red (add0 acc t38) in if full w then go n a w else E
    | D39 => let w := red (add0 acc t39) in if full w then go n a w else E | D40 => let w := red (add0 acc t40) in if full w then go n a w else E
    | D41 => let w := red (add0 acc t41) in if full w then go n a w else E | D42 => let w := red (add0 acc t42) in if full w then go n a w else E
    | D43 => let w := red (add0 acc t43) in if full w then go n a w else E | D44 => let w := red (add0 acc t44) in if full w then go n a w else E
    | D45 => let w := red (add0 acc t45) in if full w then go n a w else E | D46 => let w := red (add0 acc t46) in if full w then go n a w else E
    | D47 => let w := red (add0 acc t47) in if full w then go n a w else E | D48 => let w := red (add0 acc t48) in if full w then go n a w else E
    | D49 => let w := red (add0 acc t49) in if full w then go n a w else E | D50 => let w := red (add0 acc t50) in if full w then go n a w else E
    | D51 => let w := red (add0 acc t51) in if full w then go n a w else E | D52 => let w := red (add0 acc t52) in if full w then go n a w else E
    | D53 => let w := red (add0 acc t53) in if full w then go n a w else E | D54 => let w := red (add0 acc t54) in if full w then go n a w else E
    | D55 => let w := red (add0 acc t55) in if full w then go n a w else E | D56 => let w := red (add0 acc t56) in if full w then go n a w else E
    | D57 => let w := red (add0 acc t57) in if full w then go n a w else E | D58 => let w := red (add0 acc t58) in if full w then go n a w else E
    | D59 => let w := red (add0 acc t59) in if full w then go n a w else E | D60 => let w := red (add0 acc t60) in if full w then go n a w else E
    | D61 => let w := red (add0 acc t61) in if full w then go n a w else E | D62 => let w := red (add0 acc t62) in if full w then go n a w else E
    | D63 => let w := red (add0 acc t63) in if full w then go n a w else E
    end
  end end.
End Rounds.
Definition dmul (a b : num) : num :=
  let t2 := add0 b b in
  let t3 := add0 t2 b in
  let t4 := add0 t3 b in
  let t5 := add0 t4 b in
  let t6 := add0 t5 b in
  let t7 := add0 t6 b in
  let t8 := add0 t7 b in
  let t9 := add0 t8 b in
  let t10 := add0 t9 b in
  let t11 := add0 t10 b in
  let t12 := add0 t11 b in
  let t13 := add0 t12 b in
  let t14 := add0 t13 b in
  let t15 := add0 t14 b in
  let t16 := add0 t15 b in
  let t17 := add0 t16 b in
  let t18 := add0 t17 b in
  let t19 := add0 t18 b in
  let t20 := add0 t19 b in
  let t21 := add0 t20 b in
  let t22 := add0 t21 b in
  let t23 := add0 t22 b in
  let t24 := add0 t23 b in
  let t25 := add0 t24 b in
  let t26 := add0 t25 b in
  let t27 := add0 t26 b in
  let t28 := add0 t27 b in
  let t29 := add0 t28 b in
  let t30 := add0 t29 b in
  let t31 := add0 t30 b in
  let t32 := add0 t31 b in
  let t33 := add0 t32 b in
  let t34 := add0 t33 b in
  let t35 := add0 t34 b in
  let t36 := add0 t35 b in
  let t37 := add0 t36 b in
  let t38 := add0 t37 b in
  let t39 := add0 t38 b in
  let t40 := add0 t39 b in
  let t41 := add0 t40 b in
  let t42 := add0 t41 b in
  let t43 := add0 t42 b in
  let t44 := add0 t43 b in
  let t45 := add0 t44 b in
  let t46 := add0 t45 b in
  let t47 := add0 t46 b in
  let t48 := add0 t47 b in
  let t49 := add0 t48 b in
  let t50 := add0 t49 b in
  let t51 := add0 t50 b in
  let t52 := add0 t51 b in
  let t53 := add0 t52 b in
  let t54 := add0 t53 b in
  let t55 := add0 t54 b in
  let t56 := add0 t55 b in
  let t57 := add0 t56 b in
  let t58 := add0 t57 b in
  let t59 := add0 t58 b in
  let t60 := add0 t59 b in
  let t61 := add0 t60 b in
  let t62 := add0 t61 b in
  let t63 := add0 t62 b in
  csub (go b t2 t3 t4 t5 t6 t7 t8 t9 t10 t11 t12 t13 t14 t15 t16 t17 t18 t19 t20 t21 t22 t23 t24 t25 t26 t27 t28 t29 t30 t31 t32 t33 t34 t35 t36 t37 t38 t39 t40 t41 t42 t43 t44 t45 t46 t47 t48 t49 t50 t51 t52 t53 t54 t55 t56 t57 t58 t59 t60 t61 t62 t63 64 a E).

(** ** the values *)
Lemma dv_range d : 0 <= dv d < 64.
Proof. destruct d; cbn; lia. Qed.
Lemma nv_nonneg x : 0 <= nv x.
Proof. induction x as [|d x IH]; cbn [nv]; [lia|]. pose proof (dv_range d). lia. Qed.
Lemma full_true x : full x = true.
Proof. induction x as [|d x IH]; [reflexivity|exact IH]. Qed.
Lemma inc_ok x : nv (inc x) = nv x + 1.
Proof. induction x as [|d x IH]; [reflexivity|]. cbn [inc]. destruct d; cbn [nv dv]; lia. Qed.
Definition dig (k : Z) : D :=
  match k with
    | 0 => D0 | 1 => D1 | 2 => D2 | 3 => D3 | 4 => D4 | 5 => D5 | 6 => D6 | 7 => D7 | 8 => D8 | 9 => D9 | 10 => D10 | 11 => D11 | 12 => D12 | 13 => D13 | 14 => D14 | 15 => D15
    | 16 => D16 | 17 => D17 | 18 => D18 | 19 => D19 | 20 => D20 | 21 => D21 | 22 => D22 | 23 => D23 | 24 => D24 | 25 => D25 | 26 => D26 | 27 => D27 | 28 => D28 | 29 => D29 | 30 => D30 | 31 => D31
    | 32 => D32 | 33 => D33 | 34 => D34 | 35 => D35 | 36 => D36 | 37 => D37 | 38 => D38 | 39 => D39 | 40 => D40 | 41 => D41 | 42 => D42 | 43 => D43 | 44 => D44 | 45 => D45 | 46 => D46 | 47 => D47
    | 48 => D48 | 49 => D49 | 50 => D50 | 51 => D51 | 52 => D52 | 53 => D53 | 54 => D54 | 55 => D55 | 56 => D56 | 57 => D57 | 58 => D58 | 59 => D59 | 60 => D60 | 61 => D61 | 62 => D62
  | _ => D63
  end.
Lemma dv_dig k : 0 <= k < 64 -> dv (dig k) = k.
Proof.
  intros H. assert (A : forallb (fun k => dv (dig k) =? k) (map Z.of_nat (seq 0 64)) = true) by (vm_compute; reflexivity).
  rewrite forallb_forall in A. apply Z.eqb_eq, A. apply in_map_iff. exists (Z.to_nat k). split; [lia|]. apply in_seq. lia.
Qed.
Lemma tab0_ok f g d e x y : tab0 f g d e x y = if dv d + dv e <? 64 then C (dig (dv d + dv e)) (f x y) else C (dig (dv d + dv e - 64)) (g x y).
Proof. destruct d; destruct e; reflexivity. Qed.
Lemma tab1_ok f g d e x y : tab1 f g d e x y = if dv d + dv e + 1 <? 64 then C (dig (dv d + dv e + 1)) (f x y) else C (dig (dv d + dv e + 1 - 64)) (g x y).
Proof. destruct d; destruct e; reflexivity. Qed.
Lemma plus_ok x : forall y, nv (plus0 x y) = nv x + nv y /\ nv (plus1 x y) = nv x + nv y + 1.
Proof.
  induction x as [|d x IH]; intros y; [split; [reflexivity|exact (inc_ok y)]|].
  destruct y as [|e y]; [split; [cbn [plus0 nv]; lia|change (plus1 (C d x) E) with (inc (C d x)); rewrite inc_ok; cbn [nv]; lia]|].
  destruct (IH y) as [I0 I1]. pose proof (dv_range d) as RD. pose proof (dv_range e) as RE. cbn [plus0 plus1]. rewrite tab0_ok, tab1_ok. split.
  - destruct (dv d + dv e <? 64) eqn:L; [apply Z.ltb_lt in L|apply Z.ltb_ge in L]; cbn [nv]; rewrite dv_dig by lia; lia.
  - destruct (dv d + dv e + 1 <? 64) eqn:L; [apply Z.ltb_lt in L|apply Z.ltb_ge in L]; cbn [nv]; rewrite dv_dig by lia; lia.
Qed.
Lemma add0_is : add0 = plus0. Proof. reflexivity. Qed.
Lemma add1_is : add1 = plus1. Proof. reflexivity. Qed.
Lemma add0_ok x y : nv (add0 x y) = nv x + nv y. Proof. rewrite add0_is. apply plus_ok. Qed.
Lemma add1_ok x y : nv (add1 x y) = nv x + nv y + 1. Proof. rewrite add1_is. apply plus_ok. Qed.
Lemma cdig_ok d : dv (cdig d) = 63 - dv d. Proof. destruct d; reflexivity. Qed.
Lemma pow_S n : 64 ^ Z.of_nat (S n) = 64 * 64 ^ Z.of_nat n.
Proof. rewrite Nat2Z.inj_succ. apply Z.pow_succ_r. lia. Qed.
Lemma cpl_ok n : forall x, nv x < 64 ^ Z.of_nat n -> nv (cpl n x) = 64 ^ Z.of_nat n - 1 - nv x.
Proof.
  induction n as [|n IH]; intros x H; [cbn in *; pose proof (nv_nonneg x); lia|]. rewrite pow_S in *. assert (P : 0 < 64 ^ Z.of_nat n) by (apply Z.pow_pos_nonneg; lia).
  destruct x as [|d x]; cbn [cpl nv].
  - rewrite IH by (cbn [nv]; lia). cbn [nv dv]. lia.
  - cbn [nv] in H. pose proof (dv_range d). rewrite IH by lia. rewrite cdig_ok. lia.
Qed.
Lemma low_ok n : forall x, nv (low n x) = nv x mod 64 ^ Z.of_nat n.
Proof.
  induction n as [|n IH]; intros x; [rewrite Z.mod_1_r; reflexivity|]. assert (P : 0 < 64 ^ Z.of_nat n) by (apply Z.pow_pos_nonneg; lia).
  destruct x as [|d x]; cbn [low nv]; [rewrite Z.mod_0_l by (rewrite pow_S; lia); reflexivity|]. rewrite IH, pow_S. pose proof (dv_range d).
  rewrite (Z.mod_eq (dv d + 64 * nv x)) by lia. rewrite <- Z.div_div by lia. rewrite (Z.mul_comm 64 (nv x)), Z.div_add by lia. rewrite (Z.div_small (dv d)) by lia.
  rewrite (Z.mod_eq (nv x)) by lia. rewrite Z.add_0_l. lia.
Qed.
Lemma zero_ok x : zero x = true <-> nv x = 0.
Proof.
  induction x as [|d x IH]; [cbn; tauto|]. cbn [zero nv]. pose proof (nv_nonneg x). pose proof (dv_range d).
  split.
  - destruct d; try discriminate. intros Z. apply IH in Z. cbn [dv]. lia.
  - intros Z. assert (nv x = 0) by lia. assert (DZ : dv d = 0) by lia. destruct d; try discriminate DZ. apply IH. assumption.
Qed.
Lemma over_ok n : forall x, over n x = true <-> 64 ^ Z.of_nat n <= nv x.
Proof.
  induction n as [|n IH]; intros x.
  - cbn [over Z.of_nat]. change (64 ^ 0) with 1. pose proof (nv_nonneg x). pose proof (zero_ok x). destruct (zero x); cbn [negb].
    + split; [discriminate|]. intros K. destruct H0 as [H0 _]. specialize (H0 eq_refl). lia.
    + split; [|reflexivity]. intros _. destruct H0 as [_ H0]. destruct (Z.eq_dec (nv x) 0) as [e|ne]; [specialize (H0 e); discriminate|lia].
  - rewrite pow_S. assert (P : 0 < 64 ^ Z.of_nat n) by (apply Z.pow_pos_nonneg; lia). destruct x as [|d x]; cbn [over nv]; [split; [discriminate|lia]|].
    rewrite IH. pose proof (dv_range d). split; intros; nia.
Qed.
Lemma same_ok x : forall y, same x y = true <-> nv x = nv y.
Proof.
  induction x as [|d x IH]; intros y; [cbn [same nv]; rewrite zero_ok; split; congruence|]. destruct y as [|e y]; [unfold same; rewrite zero_ok; cbn [nv]; tauto|].
  cbn [same nv]. rewrite andb_true_iff, IH, Z.eqb_eq. pose proof (dv_range d). pose proof (dv_range e). split; [intros [-> ->]; reflexivity|]. lia.
Qed.
Lemma NP_ok : nv NP = p. Proof. vm_compute. reflexivity. Qed.
Lemma CP_ok : nv CP = 64 ^ 64 - 1 - p. Proof. vm_compute. reflexivity. Qed.
Lemma R_p : 2 * p < 64 ^ 64. Proof. vm_compute. reflexivity. Qed.
Definition dwf (x : num) : Prop := nv x < p.
Lemma csub_ok t : nv t < 2 * p -> nv (csub t) = nv t mod p.
Proof.
  intros H. unfold csub. cbv zeta. pose proof (nv_nonneg t) as N. pose proof R_p as R. assert (P : 0 < p) by exact p_pos.
  assert (V : nv (add1 t CP) = 64 ^ 64 + (nv t - p)) by (rewrite add1_ok, CP_ok; lia).
  pose proof (over_ok 64 (add1 t CP)) as O. change (Z.of_nat 64) with 64 in O. rewrite V in O. destruct (over 64 (add1 t CP)).
  - destruct O as [O _]. specialize (O eq_refl). rewrite low_ok. change (Z.of_nat 64) with 64. rewrite V.
    replace (64 ^ 64 + (nv t - p)) with (nv t - p + 1 * 64 ^ 64) by lia. rewrite Z.mod_add by lia. rewrite Z.mod_small by lia.
    apply (Z.mod_unique_pos _ _ 1); lia.
  - destruct O as [_ O]. symmetry. apply Z.mod_small. destruct (Z_lt_le_dec (nv t) p); [lia|]. assert (K : false = true) by (apply O; lia). discriminate K.
Qed.
Lemma dadd_ok x y : dwf x -> dwf y -> nv (dadd x y) = (nv x + nv y) mod p.
Proof. unfold dwf, dadd. intros X Y. rewrite csub_ok; rewrite add0_ok; [reflexivity|lia]. Qed.
Lemma dsub_ok x y : dwf x -> dwf y -> nv (dsub x y) = (nv x - nv y) mod p.
Proof.
  unfold dwf, dsub. cbv zeta. intros X Y. pose proof (nv_nonneg x) as NX. pose proof (nv_nonneg y) as NY. pose proof R_p as R. assert (P : 0 < p) by exact p_pos.
  assert (V : nv (add1 x (cpl 64 y)) = 64 ^ 64 + (nv x - nv y)).
  { rewrite add1_ok, cpl_ok by (change (Z.of_nat 64) with 64; lia). change (Z.of_nat 64) with 64. lia. }
  pose proof (over_ok 64 (add1 x (cpl 64 y))) as O. change (Z.of_nat 64) with 64 in O. rewrite V in O. destruct (over 64 (add1 x (cpl 64 y))).
  - destruct O as [O _]. specialize (O eq_refl). rewrite low_ok. change (Z.of_nat 64) with 64. rewrite V.
    replace (64 ^ 64 + (nv x - nv y)) with (nv x - nv y + 1 * 64 ^ 64) by lia. rewrite Z.mod_add by lia. rewrite !Z.mod_small by lia. reflexivity.
  - destruct O as [_ O]. assert (L : nv x < nv y) by (destruct (Z_lt_le_dec (nv x) (nv y)); [assumption|assert (K : false = true) by (apply O; lia); discriminate K]).
    rewrite low_ok. change (Z.of_nat 64) with 64. rewrite add0_ok, V, NP_ok. replace (64 ^ 64 + (nv x - nv y) + p) with (nv x - nv y + p + 1 * 64 ^ 64) by lia.
    rewrite Z.mod_add by lia. rewrite Z.mod_small by lia. apply (Z.mod_unique_pos _ _ (-1)); lia.
Qed.

Lemma M1_ok : 64 * (nv M1 + 1) = 1 + 61 * p. Proof. vm_compute. reflexivity. Qed.
Lemma M2_ok : 64 * (nv M2 + 1) = 2 + 58 * p. Proof. vm_compute. reflexivity. Qed.
Lemma M3_ok : 64 * (nv M3 + 1) = 3 + 55 * p. Proof. vm_compute. reflexivity. Qed.
Lemma M4_ok : 64 * (nv M4 + 1) = 4 + 52 * p. Proof. vm_compute. reflexivity. Qed.
Lemma M5_ok : 64 * (nv M5 + 1) = 5 + 49 * p. Proof. vm_compute. reflexivity. Qed.
Lemma M6_ok : 64 * (nv M6 + 1) = 6 + 46 * p. Proof. vm_compute. reflexivity. Qed.
Lemma M7_ok : 64 * (nv M7 + 1) = 7 + 43 * p. Proof. vm_compute. reflexivity. Qed.
Lemma M8_ok : 64 * (nv M8 + 1) = 8 + 40 * p. Proof. vm_compute. reflexivity. Qed.
Lemma M9_ok : 64 * (nv M9 + 1) = 9 + 37 * p. Proof. vm_compute. reflexivity. Qed.
Lemma M10_ok : 64 * (nv M10 + 1) = 10 + 34 * p. Proof. vm_compute. reflexivity. Qed.
Lemma M11_ok : 64 * (nv M11 + 1) = 11 + 31 * p. Proof. vm_compute. reflexivity. Qed.
Lemma M12_ok : 64 * (nv M12 + 1) = 12 + 28 * p. Proof. vm_compute. reflexivity. Qed.
Lemma M13_ok : 64 * (nv M13 + 1) = 13 + 25 * p. Proof. vm_compute. reflexivity. Qed.
Lemma M14_ok : 64 * (nv M14 + 1) = 14 + 22 * p. Proof. vm_compute. reflexivity. Qed.
Lemma M15_ok : 64 * (nv M15 + 1) = 15 + 19 * p. Proof. vm_compute. reflexivity. Qed.
Lemma M16_ok : 64 * (nv M16 + 1) = 16 + 16 * p. Proof. vm_compute. reflexivity. Qed.
Lemma M17_ok : 64 * (nv M17 + 1) = 17 + 13 * p. Proof. vm_compute. reflexivity. Qed.
Lemma M18_ok : 64 * (nv M18 + 1) = 18 + 10 * p. Proof. vm_compute. reflexivity. Qed.
Lemma M19_ok : 64 * (nv M19 + 1) = 19 + 7 * p. Proof. vm_compute. reflexivity. Qed.
Lemma M20_ok : 64 * (nv M20 + 1) = 20 + 4 * p. Proof. vm_compute. reflexivity. Qed.
Lemma M21_ok : 64 * (nv M21 + 1) = 21 + 1 * p. Proof. vm_compute. reflexivity. Qed.
Lemma M22_ok : 64 * (nv M22 + 1) = 22 + 62 * p. Proof. vm_compute. reflexivity. Qed.
Lemma M23_ok : 64 * (nv M23 + 1) = 23 + 59 * p. Proof. vm_compute. reflexivity. Qed.
Lemma M24_ok : 64 * (nv M24 + 1) = 24 + 56 * p. Proof. vm_compute. reflexivity. Qed.
Lemma M25_ok : 64 * (nv M25 + 1) = 25 + 53 * p. Proof. vm_compute. reflexivity. Qed.
Lemma M26_ok : 64 * (nv M26 + 1) = 26 + 50 * p. Proof. vm_compute. reflexivity. Qed.
Lemma M27_ok : 64 * (nv M27 + 1) = 27 + 47 * p. Proof. vm_compute. reflexivity. Qed.
Lemma M28_ok : 64 * (nv M28 + 1) = 28 + 44 * p. Proof. vm_compute. reflexivity. Qed.
Lemma M29_ok : 64 * (nv M29 + 1) = 29 + 41 * p. Proof. vm_compute. reflexivity. Qed.
Lemma M30_ok : 64 * (nv M30 + 1) = 30 + 38 * p. Proof. vm_compute. reflexivity. Qed.
Lemma M31_ok : 64 * (nv M31 + 1) = 31 + 35 * p. Proof. vm_compute. reflexivity. Qed.
Lemma M32_ok : 64 * (nv M32 + 1) = 32 + 32 * p. Proof. vm_compute. reflexivity. Qed.
Lemma M33_ok : 64 * (nv M33 + 1) = 33 + 29 * p. Proof. vm_compute. reflexivity. Qed.
Lemma M34_ok : 64 * (nv M34 + 1) = 34 + 26 * p. Proof. vm_compute. reflexivity. Qed.
Lemma M35_ok : 64 * (nv M35 + 1) = 35 + 23 * p. Proof. vm_compute. reflexivity. Qed.
Lemma M36_ok : 64 * (nv M36 + 1) = 36 + 20 * p. Proof. vm_compute. reflexivity. Qed.
Lemma M37_ok : 64 * (nv M37 + 1) = 37 + 17 * p. Proof. vm_compute. reflexivity. Qed.
Lemma M38_ok : 64 * (nv M38 + 1) = 38 + 14 * p. Proof. vm_compute. reflexivity. Qed.
Lemma M39_ok : 64 * (nv M39 + 1) = 39 + 11 * p. Proof. vm_compute. reflexivity. Qed.
Lemma M40_ok : 64 * (nv M40 + 1) = 40 + 8 * p. Proof. vm_compute. reflexivity. Qed.
Lemma M41_ok : 64 * (nv M41 + 1) = 41 + 5 * p. Proof. vm_compute. reflexivity. Qed.
Lemma M42_ok : 64 * (nv M42 + 1) = 42 + 2 * p. Proof. vm_compute. reflexivity. Qed.
Lemma M43_ok : 64 * (nv M43 + 1) = 43 + 63 * p. Proof. vm_compute. reflexivity. Qed.
Lemma M44_ok : 64 * (nv M44 + 1) = 44 + 60 * p. Proof. vm_compute. reflexivity. Qed.
Lemma M45_ok : 64 * (nv M45 + 1) = 45 + 57 * p. Proof. vm_compute. reflexivity. Qed.
Lemma M46_ok : 64 * (nv M46 + 1) = 46 + 54 * p. Proof. vm_compute. reflexivity. Qed.
Lemma M47_ok : 64 * (nv M47 + 1) = 47 + 51 * p. Proof. vm_compute. reflexivity. Qed.
Lemma M48_ok : 64 * (nv M48 + 1) = 48 + 48 * p. Proof. vm_compute. reflexivity. Qed.
Lemma M49_ok : 64 * (nv M49 + 1) = 49 + 45 * p. Proof. vm_compute. reflexivity. Qed.
Lemma M50_ok : 64 * (nv M50 + 1) = 50 + 42 * p. Proof. vm_compute. reflexivity. Qed.
Lemma M51_ok : 64 * (nv M51 + 1) = 51 + 39 * p. Proof. vm_compute. reflexivity. Qed.
Lemma M52_ok : 64 * (nv M52 + 1) = 52 + 36 * p. Proof. vm_compute. reflexivity. Qed.
Lemma M53_ok : 64 * (nv M53 + 1) = 53 + 33 * p. Proof. vm_compute. reflexivity. Qed.
Lemma M54_ok : 64 * (nv M54 + 1) = 54 + 30 * p. Proof. vm_compute. reflexivity. Qed.
Lemma M55_ok : 64 * (nv M55 + 1) = 55 + 27 * p. Proof. vm_compute. reflexivity. Qed.
Lemma M56_ok : 64 * (nv M56 + 1) = 56 + 24 * p. Proof. vm_compute. reflexivity. Qed.
Lemma M57_ok : 64 * (nv M57 + 1) = 57 + 21 * p. Proof. vm_compute. reflexivity. Qed.
Lemma M58_ok : 64 * (nv M58 + 1) = 58 + 18 * p. Proof. vm_compute. reflexivity. Qed.
Lemma M59_ok : 64 * (nv M59 + 1) = 59 + 15 * p. Proof. vm_compute. reflexivity. Qed.
Lemma M60_ok : 64 * (nv M60 + 1) = 60 + 12 * p. Proof. vm_compute. reflexivity. Qed.
Lemma M61_ok : 64 * (nv M61 + 1) = 61 + 9 * p. Proof. vm_compute. reflexivity. Qed.
Lemma M62_ok : 64 * (nv M62 + 1) = 62 + 6 * p. Proof. vm_compute. reflexivity. Qed.
Lemma M63_ok : 64 * (nv M63 + 1) = 63 + 3 * p. Proof. vm_compute. reflexivity. Qed.
Lemma red_ok t : exists c, 0 <= c <= 63 /\ 64 * nv (red t) = nv t + c * p.
Proof.
  destruct t as [|d t]; [exists 0; cbn; lia|]. destruct d; cbn [red nv dv]; [exists 0; lia| .. ].
  - exists 61. rewrite add1_ok. pose proof M1_ok. lia.
  - exists 58. rewrite add1_ok. pose proof M2_ok. lia.
  - exists 55. rewrite add1_ok. pose proof M3_ok. lia.
  - exists 52. rewrite add1_ok. pose proof M4_ok. lia.
  - exists 49. rewrite add1_ok. pose proof M5_ok. lia.
  - exists 46. rewrite add1_ok. pose proof M6_ok. lia.
  - exists 43. rewrite add1_ok. pose proof M7_ok. lia.
  - exists 40. rewrite add1_ok. pose proof M8_ok. lia.
  - exists 37. rewrite add1_ok. pose proof M9_ok. lia.
  - exists 34. rewrite add1_ok. pose proof M10_ok. lia.
  - exists 31. rewrite add1_ok. pose proof M11_ok. lia.
  - exists 28. rewrite add1_ok. pose proof M12_ok. lia.
  - exists 25. rewrite add1_ok. pose proof M13_ok. lia.
  - exists 22. rewrite add1_ok. pose proof M14_ok. lia.
  - exists 19. rewrite add1_ok. pose proof M15_ok. lia.
  - exists 16. rewrite add1_ok. pose proof M16_ok. lia.
  - exists 13. rewrite add1_ok. pose proof M17_ok. lia.
  - exists 10. rewrite add1_ok. pose proof M18_ok. lia.
  - exists 7. rewrite add1_ok. pose proof M19_ok. lia.
  - exists 4. rewrite add1_ok. pose proof M20_ok. lia.
  - exists 1. rewrite add1_ok. pose proof M21_ok. lia.
  - exists 62. rewrite add1_ok. pose proof M22_ok. lia.
  - exists 59. rewrite add1_ok. pose proof M23_ok. lia.
  - exists 56. rewrite add1_ok. pose proof M24_ok. lia.
  - exists 53. rewrite add1_ok. pose proof M25_ok. lia.
  - exists 50. rewrite add1_ok. pose proof M26_ok. lia.
  - exists 47. rewrite add1_ok. pose proof M27_ok. lia.
  - exists 44. rewrite add1_ok. pose proof M28_ok. lia.
  - exists 41. rewrite add1_ok. pose proof M29_ok. lia.
  - exists 38. rewrite add1_ok. pose proof M30_ok. lia.
  - exists 35. rewrite add1_ok. pose proof M31_ok. lia.
  - exists 32. rewrite add1_ok. pose proof M32_ok. lia.
  - exists 29. rewrite add1_ok. pose proof M33_ok. lia.
  - exists 26. rewrite add1_ok. pose proof M34_ok. lia.
  - exists 23. rewrite add1_ok. pose proof M35_ok. lia.
  - exists 20. rewrite add1_ok. pose proof M36_ok. lia.
  - exists 17. rewrite add1_ok. pose proof M37_ok. lia.
  - exists 14. rewrite add1_ok. pose proof M38_ok. lia.
  - exists 11. rewrite add1_ok. pose proof M39_ok. lia.
  - exists 8. rewrite add1_ok. pose proof M40_ok. lia.
  - exists 5. rewrite add1_ok. pose proof M41_ok. lia.
  - exists 2. rewrite add1_ok. pose proof M42_ok. lia.
  - exists 63. rewrite add1_ok. pose proof M43_ok. lia.
  - exists 60. rewrite add1_ok. pose proof M44_ok. lia.
  - exists 57. rewrite add1_ok. pose proof M45_ok. lia.
  - exists 54. rewrite add1_ok. pose proof M46_ok. lia.
  - exists 51. rewrite add1_ok. pose proof M47_ok. lia.
  - exists 48. rewrite add1_ok. pose proof M48_ok. lia.
  - exists 45. rewrite add1_ok. pose proof M49_ok. lia.
  - exists 42. rewrite add1_ok. pose proof M50_ok. lia.
  - exists 39. rewrite add1_ok. pose proof M51_ok. lia.
  - exists 36. rewrite add1_ok. pose proof M52_ok. lia.
  - exists 33. rewrite add1_ok. pose proof M53_ok. lia.
  - exists 30. rewrite add1_ok. pose proof M54_ok. lia.
  - exists 27. rewrite add1_ok. pose proof M55_ok. lia.
  - exists 24. rewrite add1_ok. pose proof M56_ok. lia.
  - exists 21. rewrite add1_ok. pose proof M57_ok. lia.
  - exists 18. rewrite add1_ok. pose proof M58_ok. lia.
  - exists 15. rewrite add1_ok. pose proof M59_ok. lia.
  - exists 12. rewrite add1_ok. pose proof M60_ok. lia.
  - exists 9. rewrite add1_ok. pose proof M61_ok. lia.
  - exists 6. rewrite add1_ok. pose proof M62_ok. lia.
  - exists 3. rewrite add1_ok. pose proof M63_ok. lia.
Qed.
Section RoundsOk.
Variables (t1 t2 t3 t4 t5 t6 t7 t8 t9 t10 t11 t12 t13 t14 t15 t16 t17 t18 t19 t20 t21 t22 t23 t24 t25 t26 t27 t28 t29 t30 t31 t32 t33 t34 t35 t36 t37 t38 t39 t40 t41 t42 t43 t44 t45 t46 t47 t48 t49 t50 t51 t52 t53 t54 t55 t56 t57 t58 t59 t60 t61 t62 t63 : num) (b : Z).
Hypothesis b_range : 0 <= b < p.
Hypothesis H1 : nv t1 = 1 * b.
Hypothesis H2 : nv t2 = 2 * b.
Hypothesis H3 : nv t3 = 3 * b.
Hypothesis H4 : nv t4 = 4 * b.
Hypothesis H5 : nv t5 = 5 * b.
Hypothesis H6 : nv t6 = 6 * b.
Hypothesis H7 : nv t7 = 7 * b.
Hypothesis H8 : nv t8 = 8 * b.
Hypothesis H9 : nv t9 = 9 * b.
Hypothesis H10 : nv t10 = 10 * b.
Hypothesis H11 : nv t11 = 11 * b.
Hypothesis H12 : nv t12 = 12 * b.
Hypothesis H13 : nv t13 = 13 * b.
Hypothesis H14 : nv t14 = 14 * b.
Hypothesis H15 : nv t15 = 15 * b.
Hypothesis H16 : nv t16 = 16 * b.
Hypothesis H17 : nv t17 = 17 * b.
Hypothesis H18 : nv t18 = 18 * b.
Hypothesis H19 : nv t19 = 19 * b.
Hypothesis H20 : nv t20 = 20 * b.
Hypothesis H21 : nv t21 = 21 * b.
Hypothesis H22 : nv t22 = 22 * b.
Hypothesis H23 : nv t23 = 23 * b.
Hypothesis H24 : nv t24 = 24 * b.
Hypothesis H25 : nv t25 = 25 * b.
Hypothesis H26 : nv t26 = 26 * b.
Hypothesis H27 : nv t27 = 27 * b.
Hypothesis H28 : nv t28 = 28 * b.
Hypothesis H29 : nv t29 = 29 * b.
Hypothesis H30 : nv t30 = 30 * b.
Hypothesis H31 : nv t31 = 31 * b.
Hypothesis H32 : nv t32 = 32 * b.
Hypothesis H33 : nv t33 = 33 * b.
Hypothesis H34 : nv t34 = 34 * b.
Hypothesis H35 : nv t35 = 35 * b.
Hypothesis H36 : nv t36 = 36 * b.
Hypothesis H37 : nv t37 = 37 * b.
Hypothesis H38 : nv t38 = 38 * b.
Hypothesis H39 : nv t39 = 39 * b.
Hypothesis H40 : nv t40 = 40 * b.
Hypothesis H41 : nv t41 = 41 * b.
Hypothesis H42 : nv t42 = 42 * b.
Hypothesis H43 : nv t43 = 43 * b.
Hypothesis H44 : nv t44 = 44 * b.
Hypothesis H45 : nv t45 = 45 * b.
Hypothesis H46 : nv t46 = 46 * b.
Hypothesis H47 : nv t47 = 47 * b.
Hypothesis H48 : nv t48 = 48 * b.
Hypothesis H49 : nv t49 = 49 * b.
Hypothesis H50 : nv t50 = 50 * b.
Hypothesis H51 : nv t51 = 51 * b.
Hypothesis H52 : nv t52 = 52 * b.
Hypothesis H53 : nv t53 = 53 * b.
Hypothesis H54 : nv t54 = 54 * b.
Hypothesis H55 : nv t55 = 55 * b.
Hypothesis H56 : nv t56 = 56 * b.
Hypothesis H57 : nv t57 = 57 * b.
Hypothesis H58 : nv t58 = 58 * b.
Hypothesis H59 : nv t59 = 59 * b.
Hypothesis H60 : nv t60 = 60 * b.
Hypothesis H61 : nv t61 = 61 * b.
Hypothesis H62 : nv t62 = 62 * b.
Hypothesis H63 : nv t63 = 63 * b.
Notation GO := (go t1 t2 t3 t4 t5 t6 t7 t8 t9 t10 t11 t12 t13 t14 t15 t16 t17 t18 t19 t20 t21 t22 t23 t24 t25 t26 t27 t28 t29 t30 t31 t32 t33 t34 t35 t36 t37 t38 t39 t40 t41 t42 t43 t44 t45 t46 t47 t48 t49 t50 t51 t52 t53 t54 t55 t56 t57 t58 t59 t60 t61 t62 t63).
Lemma round k w acc t n a : nv w = 64 * nv a + k -> 0 <= k < 64 -> nv t = nv acc + k * b -> nv acc < b + p -> 0 <= nv acc ->
  (forall a acc, nv a < 64 ^ Z.of_nat n -> 0 <= nv acc < b + p -> exists m, 0 <= nv (GO n a acc) < b + p /\ 64 ^ Z.of_nat n * nv (GO n a acc) = nv acc + nv a * b + m * p) ->
  nv w < 64 ^ Z.of_nat (S n) ->
  exists m, 0 <= nv (if full (red t) then GO n a (red t) else E) < b + p /\ 64 ^ Z.of_nat (S n) * nv (if full (red t) then GO n a (red t) else E) = nv acc + nv w * b + m * p.
Proof.
  intros W KR T A N IH L. rewrite full_true. rewrite pow_S in *. destruct (red_ok t) as (c & CR & E). pose proof (nv_nonneg (red t)) as NR.
  destruct (IH a (red t)) as (m & B1 & B2); [nia|nia|]. exists (64 * m + c). split; [exact B1|].
  rewrite <- Z.mul_assoc, B2, W. rewrite T in E. nia.
Qed.
Lemma go_ok n : forall a acc, nv a < 64 ^ Z.of_nat n -> 0 <= nv acc < b + p ->
  exists m, 0 <= nv (GO n a acc) < b + p /\ 64 ^ Z.of_nat n * nv (GO n a acc) = nv acc + nv a * b + m * p.
Proof.
  induction n as [|n IH]; intros a acc A R.
  - exists 0. pose proof (nv_nonneg a). change (64 ^ Z.of_nat 0) with 1 in *. cbn [go]. nia.
  - destruct a as [|d a].
    + refine (round 0 E acc acc n E _ _ _ _ _ IH A); cbn [nv]; lia.
    + destruct d; cbn [go]; cbv zeta.
      * refine (round 0 (C D0 a) acc acc n a _ _ _ _ _ IH A); cbn [nv dv]; lia.
      * refine (round 1 (C D1 a) acc (add0 acc t1) n a _ _ _ _ _ IH A); [cbn [nv dv]; lia|lia|rewrite add0_ok, H1; reflexivity|lia|lia].
      * refine (round 2 (C D2 a) acc (add0 acc t2) n a _ _ _ _ _ IH A); [cbn [nv dv]; lia|lia|rewrite add0_ok, H2; reflexivity|lia|lia].
      * refine (round 3 (C D3 a) acc (add0 acc t3) n a _ _ _ _ _ IH A); [cbn [nv dv]; lia|lia|rewrite add0_ok, H3; reflexivity|lia|lia].
      * refine (round 4 (C D4 a) acc (add0 acc t4) n a _ _ _ _ _ IH A); [cbn [nv dv]; lia|lia|rewrite add0_ok, H4; reflexivity|lia|lia].
      * refine (round 5 (C D5 a) acc (add0 acc t5) n a _ _ _ _ _ IH A); [cbn [nv dv]; lia|lia|rewrite add0_ok, H5; reflexivity|lia|lia].
      * refine (round 6 (C D6 a) acc (add0 acc t6) n a _ _ _ _ _ IH A); [cbn [nv dv]; lia|lia|rewrite add0_ok, H6; reflexivity|lia|lia].
      * refine (round 7 (C D7 a) acc (add0 acc t7) n a _ _ _ _ _ IH A); [cbn [nv dv]; lia|lia|rewrite add0_ok, H7; reflexivity|lia|lia].
      * refine (round 8 (C D8 a) acc (add0 acc t8) n a _ _ _ _ _ IH A); [cbn [nv dv]; lia|lia|rewrite add0_ok, H8; reflexivity|lia|lia].
      * refine (round 9 (C D9 a) acc (add0 acc t9) n a _ _ _ _ _ IH A); [cbn [nv dv]; lia|lia|rewrite add0_ok, H9; reflexivity|lia|lia].
      * refine (round 10 (C D10 a) acc (add0 acc t10) n a _ _ _ _ _ IH A); [cbn [nv dv]; lia|lia|rewrite add0_ok, H10; reflexivity|lia|lia].
      * refine (round 11 (C D11 a) acc (add0 acc t11) n a _ _ _ _ _ IH A); [cbn [nv dv]; lia|lia|rewrite add0_ok, H11; reflexivity|lia|lia].
      * refine (round 12 (C D12 a) acc (add0 acc t12) n a _ _ _ _ _ IH A); [cbn [nv dv]; lia|lia|rewrite add0_ok, H12; reflexivity|lia|lia].
      * refine (round 13 (C D13 a) acc (add0 acc t13) n a _ _ _ _ _ IH A); [cbn [nv dv]; lia|lia|rewrite add0_ok, H13; reflexivity|lia|lia].
      * refine (round 14 (C D14 a) acc (add0 acc t14) n a _ _ _ _ _ IH A); [cbn [nv dv]; lia|lia|rewrite add0_ok, H14; reflexivity|lia|lia].
      * refine (round 15 (C D15 a) acc (add0 acc t15) n a _ _ _ _ _ IH A); [cbn [nv dv]; lia|lia|rewrite add0_ok, H15; reflexivity|lia|lia].
      * refine (round 16 (C D16 a) acc (add0 acc t16) n a _ _ _ _ _ IH A); [cbn [nv dv]; lia|lia|rewrite add0_ok, H16; reflexivity|lia|lia].
      * refine (round 17 (C D17 a) acc (add0 acc t17) n a _ _ _ _ _ IH A); [cbn [nv dv]; lia|lia|rewrite add0_ok, H17; reflexivity|lia|lia].
      * refine (round 18 (C D18 a) acc (add0 acc t18) n a _ _ _ _ _ IH A); [cbn [nv dv]; lia|lia|rewrite add0_ok, H18; reflexivity|lia|lia].
      * refine (round 19 (C D19 a) acc (add0 acc t19) n a _ _ _ _ _ IH A); [cbn [nv dv]; lia|lia|rewrite add0_ok, H19; reflexivity|lia|lia].
      * refine (round 20 (C D20 a) acc (add0 acc t20) n a _ _ _ _ _ IH A); [cbn [nv dv]; lia|lia|rewrite add0_ok, H20; reflexivity|lia|lia].
      * refine (round 21 (C D21 a) acc (add0 acc t21) n a _ _ _ _ _ IH A); [cbn [nv dv]; lia|lia|rewrite add0_ok, H21; reflexivity|lia|lia].
      * refine (round 22 (C D22 a) acc (add0 acc t22) n a _ _ _ _ _ IH A); [cbn [nv dv]; lia|lia|rewrite add0_ok, H22; reflexivity|lia|lia].
      * refine (round 23 (C D23 a) acc (add0 acc t23) n a _ _ _ _ _ IH A); [cbn [nv dv]; lia|lia|rewrite add0_ok, H23; reflexivity|lia|lia].
      * refine (round 24 (C D24 a) acc (add0 acc t24) n a _ _ _ _ _ IH A); [cbn [nv dv]; lia|lia|rewrite add0_ok, H24; reflexivity|lia|lia].
      * refine (round 25 (C D25 a) acc (add0 acc t25) n a _ _ _ _ _ IH A); [cbn [nv dv]; lia|lia|rewrite add0_ok, H25; reflexivity|lia|lia].
      * refine (round 26 (C D26 a) acc (add0 acc t26) n a _ _ _ _ _ IH A); [cbn [nv dv]; lia|lia|rewrite add0_ok, H26; reflexivity|lia|lia].
      * refine (round 27 (C D27 a) acc (add0 acc t27) n a _ _ _ _ _ IH A); [cbn [nv dv]; lia|lia|rewrite add0_ok, H27; reflexivity|lia|lia].
      * refine (round 28 (C D28 a) acc (add0 acc t28) n a _ _ _ _ _ IH A); [cbn [nv dv]; lia|lia|rewrite add0_ok, H28; reflexivity|lia|lia].
      * refine (round 29 (C D29 a) acc (add0 acc t29) n a _ _ _ _ _ IH A); [cbn [nv dv]; lia|lia|rewrite add0_ok, H29; reflexivity|lia|lia].
      * refine (round 30 (C D30 a) acc (add0 acc t30) n a _ _ _ _ _ IH A); [cbn [nv dv]; lia|lia|rewrite add0_ok, H30; reflexivity|lia|lia].
      * refine (round 31 (C D31 a) acc (add0 acc t31) n a _ _ _ _ _ IH A); [cbn [nv dv]; lia|lia|rewrite add0_ok, H31; reflexivity|lia|lia].
      * refine (round 32 (C D32 a) acc (add0 acc t32) n a _ _ _ _ _ IH A); [cbn [nv dv]; lia|lia|rewrite add0_ok, H32; reflexivity|lia|lia].
      * refine (round 33 (C D33 a) acc (add0 acc t33) n a _ _ _ _ _ IH A); [cbn [nv dv]; lia|lia|rewrite add0_ok, H33; reflexivity|lia|lia].
      * refine (round 34 (C D34 a) acc (add0 acc t34) n a _ _ _ _ _ IH A); [cbn [nv dv]; lia|lia|rewrite add0_ok, H34; reflexivity|lia|lia].
      * refine (round 35 (C D35 a) acc (add0 acc t35) n a _ _ _ _ _ IH A); [cbn [nv dv]; lia|lia|rewrite add0_ok, H35; reflexivity|lia|lia].
      * refine (round 36 (C D36 a) acc (add0 acc t36) n a _ _ _ _ _ IH A); [cbn [nv dv]; lia|lia|rewrite add0_ok, H36; reflexivity|lia|lia].
      * refine (round 37 (C D37 a) acc (add0 acc t37) n a _ _ _ _ _ IH A); [cbn [nv dv]; lia|lia|rewrite add0_ok, H37; reflexivity|lia|lia].
      * refine (round 38 (C D38 a) acc (add0 acc t38) n a _ _ _ _ _ IH A); [cbn [nv dv]; lia|lia|rewrite add0_ok, H38; reflexivity|lia|lia].
      * refine (round 39 (C D39 a) acc (add0 acc t39) n a _ _ _ _ _ IH A); [cbn [nv dv]; lia|lia|rewrite add0_ok, H39; reflexivity|lia|lia].
      * refine (round 40 (C D40 a) acc (add0 acc t40) n a _ _ _ _ _ IH A); [cbn [nv dv]; lia|lia|rewrite add0_ok, H40; reflexivity|lia|lia].
      * refine (round 41 (C D41 a) acc (add0 acc t41) n a _ _ _ _ _ IH A); [cbn [nv dv]; lia|lia|rewrite add0_ok, H41; reflexivity|lia|lia].
      * refine (round 42 (C D42 a) acc (add0 acc t42) n a _ _ _ _ _ IH A); [cbn [nv dv]; lia|lia|rewrite add0_ok, H42; reflexivity|lia|lia].
      * refine (round 43 (C D43 a) acc (add0 acc t43) n a _ _ _ _ _ IH A); [cbn [nv dv]; lia|lia|rewrite add0_ok, H43; reflexivity|lia|lia].
      * refine (round 44 (C D44 a) acc (add0 acc t44) n a _ _ _ _ _ IH A); [cbn [nv dv]; lia|lia|rewrite add0_ok, H44; reflexivity|lia|lia].
      * refine (round 45 (C D45 a) acc (add0 acc t45) n a _ _ _ _ _ IH A); [cbn [nv dv]; lia|lia|rewrite add0_ok, H45; reflexivity|lia|lia].
      * refine (round 46 (C D46 a) acc (add0 acc t46) n a _ _ _ _ _ IH A); [cbn [nv dv]; lia|lia|rewrite add0_ok, H46; reflexivity|lia|lia].
      * refine (round 47 (C D47 a) acc (add0 acc t47) n a _ _ _ _ _ IH A); [cbn [nv dv]; lia|lia|rewrite add0_ok, H47; reflexivity|lia|lia].
      * refine (round 48 (C D48 a) acc (add0 acc t48) n a _ _ _ _ _ IH A); [cbn [nv dv]; lia|lia|rewrite add0_ok, H48; reflexivity|lia|lia].
      * refine (round 49 (C D49 a) acc (add0 acc t49) n a _ _ _ _ _ IH A); [cbn [nv dv]; lia|lia|rewrite add0_ok, H49; reflexivity|lia|lia].
      * refine (round 50 (C D50 a) acc (add0 acc t50) n a _ _ _ _ _ IH A); [cbn [nv dv]; lia|lia|rewrite add0_ok, H50; reflexivity|lia|lia].
      * refine (round 51 (C D51 a) acc (add0 acc t51) n a _ _ _ _ _ IH A); [cbn [nv dv]; lia|lia|rewrite add0_ok, H51; reflexivity|lia|lia].
      * refine (round 52 (C D52 a) acc (add0 acc t52) n a _ _ _ _ _ IH A); [cbn [nv dv]; lia|lia|rewrite add0_ok, H52; reflexivity|lia|lia].
      * refine (round 53 (C D53 a) acc (add0 acc t53) n a _ _ _ _ _ IH A); [cbn [nv dv]; lia|lia|rewrite add0_ok, H53; reflexivity|lia|lia].
      * refine (round 54 (C D54 a) acc (add0 acc t54) n a _ _ _ _ _ IH A); [cbn [nv dv]; lia|lia|rewrite add0_ok, H54; reflexivity|lia|lia].
      * refine (round 55 (C D55 a) acc (add0 acc t55) n a _ _ _ _ _ IH A); [cbn [nv dv]; lia|lia|rewrite add0_ok, H55; reflexivity|lia|lia].
      * refine (round 56 (C D56 a) acc (add0 acc t56) n a _ _ _ _ _ IH A); [cbn [nv dv]; lia|lia|rewrite add0_ok, H56; reflexivity|lia|lia].
      * refine (round 57 (C D57 a) acc (add0 acc t57) n a _ _ _ _ _ IH A); [cbn [nv dv]; lia|lia|rewrite add0_ok, H57; reflexivity|lia|lia].
      * refine (round 58 (C D58 a) acc (add0 acc t58) n a _ _ _ _ _ IH A); [cbn [nv dv]; lia|lia|rewrite add0_ok, H58; reflexivity|lia|lia].
      * refine (round 59 (C D59 a) acc (add0 acc t59) n a _ _ _ _ _ IH A); [cbn [nv dv]; lia|lia|rewrite add0_ok, H59; reflexivity|lia|lia].
      * refine (round 60 (C D60 a) acc (add0 acc t60) n a _ _ _ _ _ IH A); [cbn [nv dv]; lia|lia|rewrite add0_ok, H60; reflexivity|lia|lia].
      * refine (round 61 (C D61 a) acc (add0 acc t61) n a _ _ _ _ _ IH A); [cbn [nv dv]; lia|lia|rewrite add0_ok, H61; reflexivity|lia|lia].
      * refine (round 62 (C D62 a) acc (add0 acc t62) n a _ _ _ _ _ IH A); [cbn [nv dv]; lia|lia|rewrite add0_ok, H62; reflexivity|lia|lia].
      * refine (round 63 (C D63 a) acc (add0 acc t63) n a _ _ _ _ _ IH A); [cbn [nv dv]; lia|lia|rewrite add0_ok, H63; reflexivity|lia|lia].
Qed.
End RoundsOk.
Lemma mult_step t b k v : nv t = k * v -> nv b = v -> nv (add0 t b) = (k + 1) * v.
Proof. intros T B. rewrite add0_ok, T, B. lia. Qed.
Lemma dmul_ok a b : dwf a -> dwf b -> nv (dmul a b) < p /\ (64 ^ 64 * nv (dmul a b)) mod p = (nv a * nv b) mod p.
Proof.
  unfold dwf. intros A B. unfold dmul. pose proof (nv_nonneg b) as NB. pose proof R_p as R. assert (P : 0 < p) by exact p_pos.
  set (t2 := add0 b b). assert (H2 : nv t2 = 2 * nv b) by exact (mult_step _ _ 1 _ (eq_sym (Z.mul_1_l _)) eq_refl). clearbody t2.
  set (t3 := add0 t2 b). assert (H3 : nv t3 = 3 * nv b) by exact (mult_step _ _ 2 _ H2 eq_refl). clearbody t3.
  set (t4 := add0 t3 b). assert (H4 : nv t4 = 4 * nv b) by exact (mult_step _ _ 3 _ H3 eq_refl). clearbody t4.
  set (t5 := add0 t4 b). assert (H5 : nv t5 = 5 * nv b) by exact (mult_step _ _ 4 _ H4 eq_refl). clearbody t5.
  set (t6 := add0 t5 b). assert (H6 : nv t6 = 6 * nv b) by exact (mult_step _ _ 5 _ H5 eq_refl). clearbody t6.
  set (t7 := add0 t6 b). assert (H7 : nv t7 = 7 * nv b) by exact (mult_step _ _ 6 _ H6 eq_refl). clearbody t7.
  set (t8 := add0 t7 b). assert (H8 : nv t8 = 8 * nv b) by exact (mult_step _ _ 7 _ H7 eq_refl). clearbody t8.
  set (t9 := add0 t8 b). assert (H9 : nv t9 = 9 * nv b) by exact (mult_step _ _ 8 _ H8 eq_refl). clearbody t9.
  set (t10 := add0 t9 b). assert (H10 : nv t10 = 10 * nv b) by exact (mult_step _ _ 9 _ H9 eq_refl). clearbody t10.
  set (t11 := add0 t10 b). assert (H11 : nv t11 = 11 * nv b) by exact (mult_step _ _ 10 _ H10 eq_refl). clearbody t11.
  set (t12 := add0 t11 b). assert (H12 : nv t12 = 12 * nv b) by exact (mult_step _ _ 11 _ H11 eq_refl). clearbody t12.
  set (t13 := add0 t12 b). assert (H13 : nv t13 = 13 * nv b) by exact (mult_step _ _ 12 _ H12 eq_refl). clearbody t13.
  set (t14 := add0 t13 b). assert (H14 : nv t14 = 14 * nv b) by exact (mult_step _ _ 13 _ H13 eq_refl). clearbody t14.
  set (t15 := add0 t14 b). assert (H15 : nv t15 = 15 * nv b) by exact (mult_step _ _ 14 _ H14 eq_refl). clearbody t15.
  set (t16 := add0 t15 b). assert (H16 : nv t16 = 16 * nv b) by exact (mult_step _ _ 15 _ H15 eq_refl). clearbody t16.
  set (t17 := add0 t16 b). assert (H17 : nv t17 = 17 * nv b) by exact (mult_step _ _ 16 _ H16 eq_refl). clearbody t17.
  set (t18 := add0 t17 b). assert (H18 : nv t18 = 18 * nv b) by exact (mult_step _ _ 17 _ H17 eq_refl). clearbody t18.
  set (t19 := add0 t18 b). assert (H19 : nv t19 = 19 * nv b) by exact (mult_step _ _ 18 _ H18 eq_refl). clearbody t19.
  set (t20 := add0 t19 b). assert (H20 : nv t20 = 20 * nv b) by exact (mult_step _ _ 19 _ H19 eq_refl). clearbody t20.
  set (t21 := add0 t20 b). assert (H21 : nv t21 = 21 * nv b) by exact (mult_step _ _ 20 _ H20 eq_refl). clearbody t21.
  set (t22 := add0 t21 b). assert (H22 : nv t22 = 22 * nv b) by exact (mult_step _ _ 21 _ H21 eq_refl). clearbody t22.
  set (t23 := add0 t22 b). assert (H23 : nv t23 = 23 * nv b) by exact (mult_step _ _ 22 _ H22 eq_refl). clearbody t23.
  set (t24 := add0 t23 b). assert (H24 : nv t24 = 24 * nv b) by exact (mult_step _ _ 23 _ H23 eq_refl). clearbody t24.
  set (t25 := add0 t24 b). assert (H25 : nv t25 = 25 * nv b) by exact (mult_step _ _ 24 _ H24 eq_refl). clearbody t25.
  set (t26 := add0 t25 b). assert (H26 : nv t26 = 26 * nv b) by exact (mult_step _ _ 25 _ H25 eq_refl). clearbody t26.
  set (t27 := add0 t26 b). assert (H27 : nv t27 = 27 * nv b) by exact (mult_step _ _ 26 _ H26 eq_refl). clearbody t27.
  set (t28 := add0 t27 b). assert (H28 : nv t28 = 28 * nv b) by exact (mult_step _ _ 27 _ H27 eq_refl). clearbody t28.
  set (t29 := add0 t28 b). assert (H29 : nv t29 = 29 * nv b) by exact (mult_step _ _ 28 _ H28 eq_refl). clearbody t29.
  set (t30 := add0 t29 b). assert (H30 : nv t30 = 30 * nv b) by exact (mult_step _ _ 29 _ H29 eq_refl). clearbody t30.
  set (t31 := add0 t30 b). assert (H31 : nv t31 = 31 * nv b) by exact (mult_step _ _ 30 _ H30 eq_refl). clearbody t31.
  set (t32 := add0 t31 b). assert (H32 : nv t32 = 32 * nv b) by exact (mult_step _ _ 31 _ H31 eq_refl). clearbody t32.
  set (t33 := add0 t32 b). assert (H33 : nv t33 = 33 * nv b) by exact (mult_step _ _ 32 _ H32 eq_refl). clearbody t33.
  set (t34 := add0 t33 b). assert (H34 : nv t34 = 34 * nv b) by exact (mult_step _ _ 33 _ H33 eq_refl). clearbody t34.
  set (t35 := add0 t34 b). assert (H35 : nv t35 = 35 * nv b) by exact (mult_step _ _ 34 _ H34 eq_refl). clearbody t35.
  set (t36 := add0 t35 b). assert (H36 : nv t36 = 36 * nv b) by exact (mult_step _ _ 35 _ H35 eq_refl). clearbody t36.
  set (t37 := add0 t36 b). assert (H37 : nv t37 = 37 * nv b) by exact (mult_step _ _ 36 _ H36 eq_refl). clearbody t37.
  set (t38 := add0 t37 b). assert (H38 : nv t38 = 38 * nv b) by exact (mult_step _ _ 37 _ H37 eq_refl). clearbody t38.
  set (t39 := add0 t38 b). assert (H39 : nv t39 = 39 * nv b) by exact (mult_step _ _ 38 _ H38 eq_refl). clearbody t39.
  set (t40 := add0 t39 b). assert (H40 : nv t40 = 40 * nv b) by exact (mult_step _ _ 39 _ H39 eq_refl). clearbody t40.
  set (t41 := add0 t40 b). assert (H41 : nv t41 = 41 * nv b) by exact (mult_step _ _ 40 _ H40 eq_refl). clearbody t41.
  set (t42 := add0 t41 b). assert (H42 : nv t42 = 42 * nv b) by exact (mult_step _ _ 41 _ H41 eq_refl). clearbody t42.
  set (t43 := add0 t42 b). assert (H43 : nv t43 = 43 * nv b) by exact (mult_step _ _ 42 _ H42 eq_refl). clearbody t43.
  set (t44 := add0 t43 b). assert (H44 : nv t44 = 44 * nv b) by exact (mult_step _ _ 43 _ H43 eq_refl). clearbody t44.
  set (t45 := add0 t44 b). assert (H45 : nv t45 = 45 * nv b) by exact (mult_step _ _ 44 _ H44 eq_refl). clearbody t45.
  set (t46 := add0 t45 b). assert (H46 : nv t46 = 46 * nv b) by exact (mult_step _ _ 45 _ H45 eq_refl). clearbody t46.
  set (t47 := add0 t46 b). assert (H47 : nv t47 = 47 * nv b) by exact (mult_step _ _ 46 _ H46 eq_refl). clearbody t47.
  set (t48 := add0 t47 b). assert (H48 : nv t48 = 48 * nv b) by exact (mult_step _ _ 47 _ H47 eq_refl). clearbody t48.
  set (t49 := add0 t48 b). assert (H49 : nv t49 = 49 * nv b) by exact (mult_step _ _ 48 _ H48 eq_refl). clearbody t49.
  set (t50 := add0 t49 b). assert (H50 : nv t50 = 50 * nv b) by exact (mult_step _ _ 49 _ H49 eq_refl). clearbody t50.
  set (t51 := add0 t50 b). assert (H51 : nv t51 = 51 * nv b) by exact (mult_step _ _ 50 _ H50 eq_refl). clearbody t51.
  set (t52 := add0 t51 b). assert (H52 : nv t52 = 52 * nv b) by exact (mult_step _ _ 51 _ H51 eq_refl). clearbody t52.
  set (t53 := add0 t52 b). assert (H53 : nv t53 = 53 * nv b) by exact (mult_step _ _ 52 _ H52 eq_refl). clearbody t53.
  set (t54 := add0 t53 b). assert (H54 : nv t54 = 54 * nv b) by exact (mult_step _ _ 53 _ H53 eq_refl). clearbody t54.
  set (t55 := add0 t54 b). assert (H55 : nv t55 = 55 * nv b) by exact (mult_step _ _ 54 _ H54 eq_refl). clearbody t55.
  set (t56 := add0 t55 b). assert (H56 : nv t56 = 56 * nv b) by exact (mult_step _ _ 55 _ H55 eq_refl). clearbody t56.
  set (t57 := add0 t56 b). assert (H57 : nv t57 = 57 * nv b) by exact (mult_step _ _ 56 _ H56 eq_refl). clearbody t57.
  set (t58 := add0 t57 b). assert (H58 : nv t58 = 58 * nv b) by exact (mult_step _ _ 57 _ H57 eq_refl). clearbody t58.
  set (t59 := add0 t58 b). assert (H59 : nv t59 = 59 * nv b) by exact (mult_step _ _ 58 _ H58 eq_refl). clearbody t59.
  set (t60 := add0 t59 b). assert (H60 : nv t60 = 60 * nv b) by exact (mult_step _ _ 59 _ H59 eq_refl). clearbody t60.
  set (t61 := add0 t60 b). assert (H61 : nv t61 = 61 * nv b) by exact (mult_step _ _ 60 _ H60 eq_refl). clearbody t61.
  set (t62 := add0 t61 b). assert (H62 : nv t62 = 62 * nv b) by exact (mult_step _ _ 61 _ H61 eq_refl). clearbody t62.
  set (t63 := add0 t62 b). assert (H63 : nv t63 = 63 * nv b) by exact (mult_step _ _ 62 _ H62 eq_refl). clearbody t63.
  cbv zeta. destruct (go_ok b t2 t3 t4 t5 t6 t7 t8 t9 t10 t11 t12 t13 t14 t15 t16 t17 t18 t19 t20 t21 t22 t23 t24 t25 t26 t27 t28 t29 t30 t31 t32 t33 t34 t35 t36 t37 t38 t39 t40 t41 t42 t43 t44 t45 t46 t47 t48 t49 t50 t51 t52 t53 t54 t55 t56 t57 t58 t59 t60 t61 t62 t63 (nv b) (conj NB B) (eq_sym (Z.mul_1_l _)) H2 H3 H4 H5 H6 H7 H8 H9 H10 H11 H12 H13 H14 H15 H16 H17 H18 H19 H20 H21 H22 H23 H24 H25 H26 H27 H28 H29 H30 H31 H32 H33 H34 H35 H36 H37 H38 H39 H40 H41 H42 H43 H44 H45 H46 H47 H48 H49 H50 H51 H52 H53 H54 H55 H56 H57 H58 H59 H60 H61 H62 H63 64 a E) as (m & G1 & G2).
  - change (Z.of_nat 64) with 64. lia.
  - cbn [nv]. lia.
  - change (Z.of_nat 64) with 64 in G2. rewrite csub_ok by lia. split; [apply Z.mod_pos_bound; exact P|].
    rewrite Z.mul_mod_idemp_r by lia. rewrite G2. cbn [nv]. rewrite Z.add_0_l. apply Z.mod_add. lia.
Qed.

