(** Numbers that compute: integers standing for multiples of 2^-80.

    A second instance of [num_ops], used only to run the model on the airplanes of the
    repository's own tests (file Conformance.v).  Nothing is proved about these
    operations; they play the part of numpy's doubles with somewhat more digits. *)
From Coq Require Import ZArith List.
From Verif Require Import Base Num.
Import ListNotations.
Local Open Scope Z_scope.

Definition fbits : Z := 80.
Definition fone : Z := Z.shiftl 1 fbits.
(** rounded to nearest *)
Definition frnd (x : Z) : Z := Z.shiftr (x + Z.shiftl 1 (fbits - 1)) fbits.
Definition fmul (a b : Z) : Z := frnd (a * b).
Definition fdiv (a b : Z) : Z := if b =? 0 then 0 else (2 * Z.shiftl a fbits + b) / (2 * b).
Definition fsqrt (a : Z) : Z := Z.sqrt (Z.shiftl a fbits).
Definition fdec (m e : Z) : Z := (Z.shiftl m (fbits + 1) + 10 ^ e) / (2 * 10 ^ e).
(** pi to 35 decimals *)
Definition fpi : Z := fdec 314159265358979323846264338327950288 35.

(** sum of terms, the next one being [t * x2 / (k * (k+1))] with alternating sign [s] *)
Fixpoint series (fuel : nat) (s x2 t k acc : Z) : Z :=
  match fuel with
  | O => acc
  | S fuel =>
      if t =? 0 then acc
      else let t' := s * fmul t x2 / (k * (k + 1)) in series fuel s x2 t' (k + 2) (acc + t')
  end.
(** argument brought into [-pi, pi] *)
Definition freduce (x : Z) : Z :=
  let k := (x + fpi) / (2 * fpi) in x - k * (2 * fpi).
Definition fsin (x : Z) : Z := let y := freduce x in series 60 (-1) (fmul y y) y 2 y.
Definition fcos (x : Z) : Z := let y := freduce x in series 60 (-1) (fmul y y) fone 1 fone.

(** arctangent: halve the angle three times, then the power series *)
Fixpoint aseries (fuel : nat) (x2 p k acc : Z) : Z :=
  match fuel with
  | O => acc
  | S fuel =>
      if p =? 0 then acc
      else let p' := - fmul p x2 in aseries fuel x2 p' (k + 2) (acc + p' / k)
  end.
Definition fhalf_atan (x : Z) : Z := fdiv x (fone + fsqrt (fone + fmul x x)).
Definition fatan (x : Z) : Z :=
  let small y := let z := fhalf_atan (fhalf_atan (fhalf_atan y)) in 8 * aseries 80 (fmul z z) z 3 z in
  if fone <? x then fpi / 2 - small (fdiv fone x)
  else if x <? - fone then - (fpi / 2) - small (fdiv fone x)
  else small x.
Definition fatan2 (y x : Z) : Z :=
  if 0 <? x then fatan (fdiv y x)
  else if x <? 0 then (if 0 <=? y then fatan (fdiv y x) + fpi else fatan (fdiv y x) - fpi)
  else if 0 <? y then fpi / 2 else if y <? 0 then - (fpi / 2) else 0.
Definition facos (x : Z) : Z := fatan2 (fsqrt (fone - fmul x x)) x.

(** exp: divide by 2^8, series, square eight times *)
Fixpoint eseries (fuel : nat) (x t k acc : Z) : Z :=
  match fuel with
  | O => acc
  | S fuel => if t =? 0 then acc else let t' := fmul t x / k in eseries fuel x t' (k + 1) (acc + t')
  end.
Fixpoint squares (n : nat) (x : Z) : Z := match n with O => x | S n => squares n (fmul x x) end.
Definition fexp (x : Z) : Z := squares 8 (eseries 60 (x / 256) fone 1 fone).
(** natural logarithm by Newton's method on exp, from 2^k <= x < 2^(k+1) *)
Fixpoint newton_ln (n : nat) (x y : Z) : Z :=
  match n with O => y | S n => newton_ln n x (y + fdiv x (fexp y) - fone) end.
Definition fln2 : Z := fdec 693147180559945309417232121458176568 36.
Definition fln (x : Z) : Z :=
  if x <=? 0 then 0 else
  let k := Z.log2 x - fbits in
  let m := if 0 <=? k then Z.shiftr x k else Z.shiftl x (- k) in
  k * fln2 + newton_ln 8 m (m - fone).

#[global] Instance Fnum : num_ops Z := {
  nadd := Z.add; nsub := Z.sub; nmul := fmul; ndiv := fdiv; nopp := Z.opp;
  nabs := Z.abs; nsqrt := fsqrt; nsin := fsin; ncos := fcos; ntan := fun x => fdiv (fsin x) (fcos x);
  natan := fatan; natan2 := fatan2; nacos := facos; nexp := fexp;
  ntanh := fun x => let e := fexp (2 * x) in fdiv (e - fone) (e + fone);
  npow := fun x y => fexp (fmul y (fln x)); npi := fpi;
  nltb := Z.ltb; nleb := Z.leb; neqb := Z.eqb;
  nint := fun z => Z.shiftl z fbits; ndec := fdec
}.

(** np.linalg.solve: elimination with the largest pivot *)
Definition pick (n : nat) (rows : list (list Z * Z)) : option ((list Z * Z) * list (list Z * Z)) :=
  fold_left (fun acc r =>
    match acc with
    | None => Some (r, [])
    | Some (p, rest) =>
        if (Z.abs (nth n (fst p) 0) <? Z.abs (nth n (fst r) 0)) then Some (r, p :: rest) else Some (p, r :: rest)
    end) rows None.
Fixpoint eliminate (k : nat) (rows : list (list Z * Z)) : option (list Z) :=
  match k with
  | O => Some []
  | S k =>
      match pick 0 rows with
      | Some ((p :: ps, c), rest) =>
          if p =? 0 then None else
          let red r := match fst r with
                       | q :: qs => let f := fdiv q p in
                                    (map (fun z => fst z - fmul f (snd z)) (combine qs ps), snd r - fmul f c)
                       | [] => r
                       end in
          match eliminate k (map red rest) with
          | Some xs => Some (fdiv (c - fold_right Z.add 0 (map (fun z => fmul (fst z) (snd z)) (combine ps xs))) p :: xs)
          | None => None
          end
      | _ => None
      end
  end.
Definition fsolve (A : list (list Z)) (b : list Z) : option (list Z) :=
  eliminate (length b) (combine A b).

(** |a - b| <= 10^-e *)
Definition within (e : Z) (a b : Z) : bool := Z.abs (a - b) <=? fdec 1 e.
(** for inspection: the value times 10^e, rounded *)
Definition show (e : Z) (a : Z) : Z := frnd (a * 10 ^ e).

Example fixed_sin : within 22 (nsin (npi / nint 6)%num) (ndec 5 1) = true.
Proof. vm_compute. reflexivity. Qed.
Example fixed_acos : within 22 (nacos (ndec (-5) 1)) (fdiv (2 * fpi) (nint 3)) = true.
Proof. vm_compute. reflexivity. Qed.
Example fixed_pow : within 20 (npow (nint 3) (ndec 5 1)) (nsqrt (nint 3)) = true.
Proof. vm_compute. reflexivity. Qed.
