(** Independent vocabulary for the boundary corrections. *)
From Coq Require Import String Ascii Reals List.
Import ListNotations.
Open Scope R_scope.

(** Two letters are the same apart from case; two names likewise. *)
Definition letter_case (a b : ascii) : Prop :=
  a = b \/ (65 <= nat_of_ascii a <= 90)%nat /\ nat_of_ascii b = (nat_of_ascii a + 32)%nat.
Inductive any_case : string -> string -> Prop :=
| ac_nil : any_case EmptyString EmptyString
| ac_cons a b s t : letter_case a b -> any_case s t -> any_case (String a s) (String b t).

(** The polar form of an ellipse about a focus, with the semi-major axis [a], the
    eccentricity [e] and the angle [t] of the nearest point: the distance in the direction [th]. *)
Definition focal_distance (a e t th : R) : R := a * (1 - e ^ 2) / (1 + e * cos (th - t)).

(** A sum of the first three harmonics, as amplitude and phase of cosine and sine. *)
Definition harmonics (c0 : R) (l : list (R * R * R * R)) (th : R) : R :=
  let fix sum (n : R) (l : list (R * R * R * R)) :=
    match l with
    | [] => 0
    | (c, p, s, q) :: l' => c * cos (n * (th + p)) + s * sin (n * (th + q)) + sum (n + 1) l'
    end in
  c0 + sum 1 l.
Definition total_amplitude (l : list (R * R * R * R)) : R :=
  fold_right (fun '(c, _, s, _) acc => Rabs c + Rabs s + acc) 0 l.

(** The angle of a magnetic local time, measured from midnight. *)
Definition mlt_angle (m : R) : R := m * PI / 12.

(** The fits, as published: instrument, method, mean and harmonics (the cosine
    amplitude and phase, the sine amplitude and phase). *)
Definition published : list (string * string * R * list (R * R * R * R)) :=
  [("ampere", "median", 3.31000535,
      [(-0.5452934, -1.24389141, 2.42619653, -0.66677988); (-1.03467488, -0.30763009, 0.52426756, 0.04359299);
       (0.60201848, 0.50618522, 1.04360529, 0.25186405)]);
   ("ampere", "gaussian", 3.80100827,
      [(0.98555723, -3.43760943, 1.85084271, -0.36730751); (-0.81975654, -1.02823832, 1.30637288, -0.53599218);
       (0.40380183, -1.22462708, -1.2733629, -0.62743381)]);
   ("si12", "ocb", 0.0405, [(-1.5078, 1, 0.5095, 1); (0.9371, 1, 0.0708, 1)]);
   ("si12", "eab", -0.1447, [(-1.9779, 1, 2.6799, 1); (0.5778, 1, -1.2297, 1)]);
   ("si13", "ocb", 0.5797, [(-0.6837, 1, -0.5020, 1); (0.2971, 1, -0.4173, 1)]);
   ("si13", "eab", 0.2500, [(-2.9931, 1, 0.8818, 1); (0.8511, 1, -0.6300, 1)]);
   ("wic", "ocb", 1.0298, [(-1.1249, 1, -0.7380, 1); (0.1838, 1, -0.6171, 1)]);
   ("wic", "eab", -0.4935, [(-2.1186, 1, 0.3188, 1); (0.5749, 1, -0.3118, 1)])]%string.
