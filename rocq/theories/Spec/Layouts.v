(* The layouts of the whole library. *)
From Coq Require Import List String.
From Verif.Spec Require Import Wire LayoutSample LayoutRisk LayoutSse LayoutSzse LayoutBjse.
Definition lib_layouts : layouts :=
  (sample_layouts ++ risk_layouts ++ sse_layouts ++ szse_layouts ++ bjse_layouts)%list.
