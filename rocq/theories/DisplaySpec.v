(** * What formatted text should look like, independently of the formatting code *)
From Coq Require Import ZArith Reals List Bool.
From Flocq Require Import Core.Raux.
From Verif Require Import F64 ParseM ParseSpec DisplayM.
Import ListNotations.
Local Open Scope Z_scope.

(** a digit list: every entry 0..9 *)
Definition decimals (l : list Z) : Prop := Forall (fun d => 0 <= d <= 9) l.
(** the text of a digit *)
Definition digit_char (d : Z) : Z := 48 + d.
(** integer digits, and fraction digits after a point if there are any *)
Definition fixed_text (ip fp : list Z) : text :=
  map digit_char ip ++ match fp with [] => [] | _ => 46 :: map digit_char fp end.
(** its value, as a fraction: [dec_val (ip ++ fp) / 10 ^ length fp] *)

(** padding a finished text: [w] the minimum width; [None] for the alignment
    means right-aligned, or zeros after the sign when the zero flag is given *)
Definition padded (f : fmt) (signed : bool) (s : text) : text :=
  match f_width f with
  | None => s
  | Some w =>
      let d := (w - length s)%nat in
      match f_align f with
      | Some ALeft => s ++ repeat (f_fill f) d
      | Some ARight => repeat (f_fill f) d ++ s
      | Some ACenter => repeat (f_fill f) (d / 2) ++ s ++ repeat (f_fill f) (d - d / 2)
      | None =>
          if f_zero f then
            match s with
            | c :: s' => if signed then c :: repeat 48 d ++ s' else repeat 48 d ++ s
            | [] => repeat 48 d
            end
          else repeat (f_fill f) d ++ s
      end
  end.

(** the sign shown before a number *)
Definition sign_text (neg : bool) (f : fmt) : text := if neg then [45] else if f_plus f then [43] else [].

(** the number a printed text [fixed_text ip fp] denotes *)
Definition fixed_val (ip fp : list Z) : R := (IZR (dec_val (ip ++ fp)) / 10 ^ length fp)%R.
(** the number that digits d1 d2 d3 ... denote as d1.d2d3... times ten to the e *)
Definition digits_val (ds : list Z) (e : Z) : R := (IZR (dec_val ds) * powerRZ 10 (e + 1 - Z.of_nat (length ds)))%R.
(** nearest multiple of 10^-p, ties upwards *)
Definition half_up (p : nat) (v : R) : R := (IZR (Zfloor (v * 10 ^ p + / 2)) / 10 ^ p)%R.
(** an integer written in decimal without superfluous zeros *)
Definition int_text (n : Z) (t : text) : Prop :=
  exists ds, decimals ds /\ ds <> [] /\ (hd 0 ds <> 0 \/ ds = [0]) /\ dec_val ds = Z.abs n /\
    t = (if n <? 0 then [45] else []) ++ map digit_char ds.
