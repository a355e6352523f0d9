(* Vocabulary of C119: which characters a path contains. *)
From Verif Require Import Prelude.
From Coq Require Import Ascii.

(* no component of the path contains "[" *)
Definition no_bracket (p : list (list ascii)) : Prop :=
  forall n, In n p -> ~ In "["%char n.

(* no component of the path contains one of the characters * ? [ *)
Definition ordinary (p : list (list ascii)) : Prop :=
  forall n c, In n p -> In c n -> c <> "*"%char /\ c <> "?"%char /\ c <> "["%char.

(* a name with the characters * (any text) and ? (one character), and a text it stands for *)
Inductive stands_for : list ascii -> list ascii -> Prop :=
| sf_end : stands_for [] []
| sf_none p s : stands_for p s -> stands_for ("*"%char :: p) s
| sf_more p c s : stands_for ("*"%char :: p) s -> stands_for ("*"%char :: p) (c :: s)
| sf_any p c s : stands_for p s -> stands_for ("?"%char :: p) (c :: s)
| sf_same p c s : c <> "*"%char -> c <> "?"%char -> stands_for p s -> stands_for (c :: p) (c :: s).

(* a component of a path is looked up as a pattern: names with a leading dot need a leading dot *)
Definition covers (pat n : list ascii) : Prop :=
  stands_for pat n /\ ((exists r, n = "."%char :: r) -> exists r, pat = "."%char :: r).
