(** What it means that a release build does what a debug build does. *)

From Verif Require Import Base M_BigInt.

(** The configuration that differs in the kind of build only. *)
Definition release (cfg : digit_cfg) : digit_cfg :=
  match cfg with U64 | U64_release => U64_release | U8 | U8_release => U8_release end.

(** Two runs of one function on the same arguments: the first panics, or both do the same - return the same value (errors included), or go on for ever. *)
Definition follows {A : Type} (debug_run release_run : outcome A) : Prop := debug_run = Panic \/ release_run = debug_run.
