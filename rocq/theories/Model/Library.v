(* The whole library: all generated classes and the initial content of all factories (sources cited in Gen*.v; SseBinary.java:170-199). *)
From Coq Require Import ZArith List Bool String.
From Verif.Model Require Import JavaPrim Checksum Ast Interp Factory.
From Verif.Model Require Import GenSample GenRisk GenSse GenSzse GenBjse.
Import ListNotations.

Definition all_classes : list class_def :=
  sample_classes ++ risk_classes ++ sse_classes ++ szse_classes ++ bjse_classes.
Definition lib_classes : list (string * class_def) := map (fun c => (c_name c, c)) all_classes.

Definition all_registrations : list (string * list (key * string)) :=
  sample_factories ++ risk_factories ++ sse_factories ++ szse_factories ++ bjse_factories.
Definition lib_factories : factories := map (fun f => (fst f, static_init (snd f))) all_registrations.

(* the state right after class loading *)
Definition lib_env : env := env_of lib_classes lib_factories initial_cache.

(* SseBinary.BodyMessageFactory right after class loading *)
Definition sse_initial : sse_factory :=
  fold_left (fun s e => sse_register s (fst (fst e)) (snd (fst e)) (snd e))
    (combine sse_SseBinary_reverse (map snd sse_SseBinary_factory)) {| body_map := []; reverse_map := [] |}.
