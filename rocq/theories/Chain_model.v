(** Model of the construction of the Wilson chain: /repo/tools/nrgchain/nrgchain.cc (discretisation mesh, tables of the star
    Hamiltonian, tridiagonalisation) and /repo/c++/tridiag.hpp (the same tridiagonalisation inside the NRG program).
    Floating-point and GMP numbers are real numbers without rounding.  Printing and files are omitted. *)
From Coq Require Import List ZArith Reals Bool.
From Verif Require Import Base Interp_model.
Import ListNotations.
Local Open Scope R_scope.

(** Floating-point values: numbers, +infinity and NaN (negative infinities do not occur here). *)
Inductive fl := Fin (r : R) | Inf | NaN.
Definition of_option (x : option R) : fl := match x with Some r => Fin r | None => NaN end.
Definition fadd (x y : fl) : fl :=
  match x, y with Fin a, Fin b => Fin (a + b) | NaN, _ => NaN | _, NaN => NaN | _, _ => Inf end.
Definition fsub (x y : fl) : fl :=
  match x, y with Fin a, Fin b => Fin (a - b) | Inf, Fin _ => Inf | _, _ => NaN end.
(** sqr of a non-negative value *)
Definition fsqr (x : fl) : fl := match x with Fin a => Fin (a * a) | Inf => Inf | NaN => NaN end.
Definition fsqrt (x : fl) : fl := match x with Fin a => if Rlt_dec a 0 then NaN else Fin (sqrt a) | Inf => Inf | NaN => NaN end.
(** Quotient of two non-negative values. *)
Definition fdiv (x y : fl) : fl :=
  match x, y with
  | Fin a, Fin b => if Req_EM_T b 0 then (if Req_EM_T a 0 then NaN else Inf) else Fin (a / b)
  | Fin _, Inf => Fin 0
  | Inf, Fin _ => Inf
  | _, _ => NaN
  end.

(** The parameters. [g_pos], [g_neg], [f_pos], [f_neg] are interpolation tables (C31: functions). *)
Record cparams := { Lambda : R; z : R; mMAX : nat; adapt : bool; flat : bool; g_pos : R -> R; g_neg : R -> R; f_pos : R -> R; f_neg : R -> R }.

(** common/lambda.hpp:25 LambdaCache::power *)
Definition power (L x : R) : R := Rpower L x.

(** nrgchain.cc:73-81 eps_pos, eps_neg *)
Definition eps (P : cparams) (g : R -> R) (x : R) : R :=
  let gx := if adapt P then g x else 1 in
  if Rle_dec x 2 then 1 else gx * power (Lambda P) (2 - x).
(** nrgchain.cc:85-95 Eps_flat. floor(x) = 1 exactly if x < 2, as x >= 1. *)
Definition Eps_flat (L x : R) : R :=
  let j := IZR (Int_part x) in
  let z_ := x - j in
  if Req_EM_T j 1 then (1 - power L (- z_)) / ln L + 1 - z_
  else (1 - power L (- (1))) / ln L * power L (2 - j - z_).
(** nrgchain.cc:99-113 Eps_pos, Eps_neg *)
Definition Eps (P : cparams) (f : R -> R) (x : R) : R :=
  if flat P then Eps_flat (Lambda P) x else f x * power (Lambda P) (2 - x).

(** nrgchain.cc:256-257, 277-278: the difference of two evaluations of the cumulative hybridisation. C++ does not fix the order
    of the two evaluations; by C31 it does not matter. *)
Definition diff (t : intlinint) (a b : R) : res (fl * intlinint) :=
  let* (x, t) := call_int a t in
  let* (y, t) := call_int b t in
  Ok (fsub (of_option x) (of_option y), t).

(** nrgchain.cc:276-278: the loop over m, df_pos[m] and df_neg[m]. *)
Fixpoint df_loop (P : cparams) (ms : list nat) (tp tn : intlinint) : res (list (fl * fl)) :=
  match ms with
  | [] => Ok []
  | m :: r =>
    let* (a, tp) := diff tp (eps P (g_pos P) (z P + INR m + 1)) (eps P (g_pos P) (z P + INR m + 2)) in
    let* (b, tn) := diff tn (eps P (g_neg P) (z P + INR m + 1)) (eps P (g_neg P) (z P + INR m + 2)) in
    let* l := df_loop P r tp tn in
    Ok ((a, b) :: l)
  end.

(** nrgchain.cc:293: [if (std::abs(1 - checksum) > CHECKSUM_LIMIT)]; a comparison with NaN is false. *)
Definition CHECKSUM_LIMIT : R := / 10 ^ 10.
Definition checksum_fails (c : fl) : bool :=
  match c with Fin r => Rltb CHECKSUM_LIMIT (Rabs (1 - r)) | Inf => true | NaN => false end.

Record chain_tables := { theta : fl; du : list (fl * fl); de : list (R * R) }.

(** nrgchain.cc:251-309 tables, after init_rho (212-223): from the hybridisation at positive and at negative energies. *)
Definition tables (P : cparams) (rho_pos rho_neg : table) : res chain_tables :=
  let* tp := cumulative rho_pos in
  let* tn := cumulative rho_neg in
  let* (ip, tp) := diff tp (eps P (g_pos P) (z P + 1)) (eps P (g_pos P) (z P + INR (mMAX P) + 2)) in
  let* (in_, tn) := diff tn (eps P (g_neg P) (z P + 1)) (eps P (g_neg P) (z P + INR (mMAX P) + 2)) in
  let th := fadd ip in_ in
  let ms := seq 0 (mMAX P + 1) in
  let* df := df_loop P ms tp tn in
  let du0 := map (fun p => (fdiv (fsqrt (fst p)) (fsqrt th), fdiv (fsqrt (snd p)) (fsqrt th))) df in
  let checksum := fold_left (fun acc p => fadd acc (fadd (fsqr (fst p)) (fsqr (snd p)))) du0 (Fin 0) in
  if checksum_fails checksum then Throw else
  Ok {| theta := th;
        du := map (fun p => (fdiv (fst p) (fsqrt checksum), fdiv (snd p) (fsqrt checksum))) du0;
        de := map (fun m => (Eps P (f_pos P) (z P + INR m + 1), Eps P (f_neg P) (z P + INR m + 1))) ms |}.

(** * Tridiagonalisation *)

(** A pair of vectors u^+_m, u^-_m, m = 0, ..., mMAX. *)
Definition uvec := nat -> R * R.
(** Sums over m = 0, ..., mMAX. *)
Fixpoint msum (M : nat) (f : nat -> R) : R := match M with O => 0 | S k => msum k f + f k end.

(** nrgchain.cc:345-365 and tridiag.hpp:27-47 fix_norm; GMP aborts on a division by zero. *)
Definition fix_norm (M : nat) (u : uvec) : res uvec :=
  let sum := msum M (fun m => fst (u m) * fst (u m) + snd (u m) * snd (u m)) in
  let temp := sqrt sum in
  if Req_EM_T temp 0 then Throw else Ok (fun m => (fst (u m) / temp, snd (u m) / temp)).

(** The variables that survive an iteration of the loop. *)
Record lstate := { u_prev : uvec; u_prev2 : uvec; xi_prev : R; xi2_prev : R }.

(** nrgchain.cc:415-515 and tridiag.hpp:103-191: one iteration.  [e m] holds ep1[m] and em1[m].  GMP aborts on the square root of
    a negative number and on a division by zero; nrgchain exits if xi2 is zero. *)
Definition lanczos_step (M : nat) (e : nat -> R * R) (s : lstate) : res (R * R * lstate) :=
  let u := u_prev s in
  let zeta := msum M (fun m => fst (u m) * fst (u m) * fst (e m) - snd (u m) * snd (u m) * snd (e m)) in
  let xi2 := msum M (fun m => fst (u m) * fst (u m) * (fst (e m) * fst (e m)) + snd (u m) * snd (u m) * (snd (e m) * snd (e m))) - xi2_prev s - zeta * zeta in
  if Rle_dec xi2 0 then Throw else
  let xi := sqrt xi2 in
  let* u' := fix_norm M (fun m => (((fst (e m) - zeta) * fst (u m) - xi_prev s * fst (u_prev2 s m)) / xi,
                                   ((- snd (e m) - zeta) * snd (u m) - xi_prev s * snd (u_prev2 s m)) / xi)) in
  let xi := msum M (fun m => fst (u' m) * fst (u m) * fst (e m) - snd (u' m) * snd (u m) * snd (e m)) in
  Ok ((xi, zeta), {| u_prev := u'; u_prev2 := u; xi_prev := xi; xi2_prev := xi * xi |}).

Fixpoint lanczos_loop (n : nat) (M : nat) (e : nat -> R * R) (s : lstate) : res (list (R * R)) :=
  match n with
  | O => Ok []
  | S k => let* (c, s) := lanczos_step M e s in let* l := lanczos_loop k M e s in Ok (c :: l)
  end.

(** nrgchain.cc:374-516 and tridiag.hpp:51-192: the coefficients xi_n, zeta_n, n = 0, ..., Nmax, before the rescaling. *)
Definition tridiag (M Nmax : nat) (u e : nat -> R * R) : res (list (R * R)) :=
  let* u0 := fix_norm M u in
  lanczos_loop (Nmax + 1) M e {| u_prev := u0; u_prev2 := fun _ => (0, 0); xi_prev := 0; xi2_prev := 0 |}.

(** nrgchain.cc:247 SCALE *)
Definition SCALE (L z : R) (N : R) : R := (1 - 1 / L) / ln L * Rpower L (- (N - 1) / 2 + 1 - z).
(** nrgchain.cc:489-496 and tridiag.hpp:170-173 (where rescalexi is false): the values stored. *)
Definition stored (L z bandrescale : R) (rescalexi : bool) (n : nat) (c : R * R) : R * R :=
  (fst c / (if rescalexi then SCALE L z (INR n + 1) else 1) * bandrescale, snd c * bandrescale).
