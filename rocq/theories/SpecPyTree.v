(** Where the Python classes are defined and where they should be found. Generated by
    tools/gen_pytree.py. *)
From Coq Require Import List String.
Import ListNotations.
Open Scope string_scope.
Open Scope list_scope.

(** The directories below /repo/src whose py.rs defines a class, and its name. *)
Definition sources : list (list string * string) := [
  (["constitutive"; "hyperelastic"; "buche_silberstein"], "BucheSilberstein");
  (["constitutive"; "hyperelastic_damage"; "buche_silberstein"], "BucheSilberstein");
  (["physics"; "single_chain"; "efjc"], "EFJC");
  (["physics"; "single_chain"; "efjc"; "thermodynamics"], "EFJC");
  (["physics"; "single_chain"; "efjc"; "thermodynamics"; "isometric"], "EFJC");
  (["physics"; "single_chain"; "efjc"; "thermodynamics"; "isometric"; "asymptotic"], "EFJC");
  (["physics"; "single_chain"; "efjc"; "thermodynamics"; "isometric"; "asymptotic"; "alternative"], "EFJC");
  (["physics"; "single_chain"; "efjc"; "thermodynamics"; "isometric"; "asymptotic"; "alternative"; "legendre"], "EFJC");
  (["physics"; "single_chain"; "efjc"; "thermodynamics"; "isometric"; "asymptotic"; "legendre"], "EFJC");
  (["physics"; "single_chain"; "efjc"; "thermodynamics"; "isometric"; "asymptotic"; "reduced"], "EFJC");
  (["physics"; "single_chain"; "efjc"; "thermodynamics"; "isometric"; "asymptotic"; "reduced"; "legendre"], "EFJC");
  (["physics"; "single_chain"; "efjc"; "thermodynamics"; "isotensional"], "EFJC");
  (["physics"; "single_chain"; "efjc"; "thermodynamics"; "isotensional"; "asymptotic"], "EFJC");
  (["physics"; "single_chain"; "efjc"; "thermodynamics"; "isotensional"; "asymptotic"; "alternative"], "EFJC");
  (["physics"; "single_chain"; "efjc"; "thermodynamics"; "isotensional"; "asymptotic"; "alternative"; "legendre"], "EFJC");
  (["physics"; "single_chain"; "efjc"; "thermodynamics"; "isotensional"; "asymptotic"; "legendre"], "EFJC");
  (["physics"; "single_chain"; "efjc"; "thermodynamics"; "isotensional"; "asymptotic"; "reduced"], "EFJC");
  (["physics"; "single_chain"; "efjc"; "thermodynamics"; "isotensional"; "asymptotic"; "reduced"; "legendre"], "EFJC");
  (["physics"; "single_chain"; "efjc"; "thermodynamics"; "isotensional"; "legendre"], "EFJC");
  (["physics"; "single_chain"; "fjc"], "FJC");
  (["physics"; "single_chain"; "fjc"; "thermodynamics"], "FJC");
  (["physics"; "single_chain"; "fjc"; "thermodynamics"; "isometric"], "FJC");
  (["physics"; "single_chain"; "fjc"; "thermodynamics"; "isometric"; "legendre"], "FJC");
  (["physics"; "single_chain"; "fjc"; "thermodynamics"; "isotensional"], "FJC");
  (["physics"; "single_chain"; "fjc"; "thermodynamics"; "isotensional"; "legendre"], "FJC");
  (["physics"; "single_chain"; "fjc"; "thermodynamics"; "modified_canonical"], "FJC");
  (["physics"; "single_chain"; "fjc"; "thermodynamics"; "modified_canonical"; "asymptotic"], "FJC");
  (["physics"; "single_chain"; "fjc"; "thermodynamics"; "modified_canonical"; "asymptotic"; "strong_potential"], "FJC");
  (["physics"; "single_chain"; "fjc"; "thermodynamics"; "modified_canonical"; "asymptotic"; "weak_potential"], "FJC");
  (["physics"; "single_chain"; "ideal"], "Ideal");
  (["physics"; "single_chain"; "ideal"; "thermodynamics"], "Ideal");
  (["physics"; "single_chain"; "ideal"; "thermodynamics"; "isometric"], "Ideal");
  (["physics"; "single_chain"; "ideal"; "thermodynamics"; "isotensional"], "Ideal");
  (["physics"; "single_chain"; "swfjc"], "SWFJC");
  (["physics"; "single_chain"; "swfjc"; "thermodynamics"], "SWFJC");
  (["physics"; "single_chain"; "swfjc"; "thermodynamics"; "isometric"], "SWFJC");
  (["physics"; "single_chain"; "swfjc"; "thermodynamics"; "isometric"; "legendre"], "SWFJC");
  (["physics"; "single_chain"; "swfjc"; "thermodynamics"; "isotensional"], "SWFJC");
  (["physics"; "single_chain"; "swfjc"; "thermodynamics"; "isotensional"; "legendre"], "SWFJC");
  (["physics"; "single_chain"; "ufjc"; "lennard_jones"], "LENNARDJONESFJC");
  (["physics"; "single_chain"; "ufjc"; "lennard_jones"; "thermodynamics"], "LENNARDJONESFJC");
  (["physics"; "single_chain"; "ufjc"; "lennard_jones"; "thermodynamics"; "isometric"], "LENNARDJONESFJC");
  (["physics"; "single_chain"; "ufjc"; "lennard_jones"; "thermodynamics"; "isometric"; "asymptotic"], "LENNARDJONESFJC");
  (["physics"; "single_chain"; "ufjc"; "lennard_jones"; "thermodynamics"; "isometric"; "asymptotic"; "legendre"], "LENNARDJONESFJC");
  (["physics"; "single_chain"; "ufjc"; "lennard_jones"; "thermodynamics"; "isometric"; "asymptotic"; "reduced"], "LENNARDJONESFJC");
  (["physics"; "single_chain"; "ufjc"; "lennard_jones"; "thermodynamics"; "isometric"; "asymptotic"; "reduced"; "legendre"], "LENNARDJONESFJC");
  (["physics"; "single_chain"; "ufjc"; "lennard_jones"; "thermodynamics"; "isotensional"], "LENNARDJONESFJC");
  (["physics"; "single_chain"; "ufjc"; "lennard_jones"; "thermodynamics"; "isotensional"; "asymptotic"], "LENNARDJONESFJC");
  (["physics"; "single_chain"; "ufjc"; "lennard_jones"; "thermodynamics"; "isotensional"; "asymptotic"; "legendre"], "LENNARDJONESFJC");
  (["physics"; "single_chain"; "ufjc"; "lennard_jones"; "thermodynamics"; "isotensional"; "asymptotic"; "reduced"], "LENNARDJONESFJC");
  (["physics"; "single_chain"; "ufjc"; "lennard_jones"; "thermodynamics"; "isotensional"; "asymptotic"; "reduced"; "legendre"], "LENNARDJONESFJC");
  (["physics"; "single_chain"; "ufjc"; "lennard_jones"; "thermodynamics"; "isotensional"; "legendre"], "LENNARDJONESFJC");
  (["physics"; "single_chain"; "ufjc"; "log_squared"], "LOGSQUAREDFJC");
  (["physics"; "single_chain"; "ufjc"; "log_squared"; "thermodynamics"], "LOGSQUAREDFJC");
  (["physics"; "single_chain"; "ufjc"; "log_squared"; "thermodynamics"; "isometric"], "LOGSQUAREDFJC");
  (["physics"; "single_chain"; "ufjc"; "log_squared"; "thermodynamics"; "isometric"; "asymptotic"], "LOGSQUAREDFJC");
  (["physics"; "single_chain"; "ufjc"; "log_squared"; "thermodynamics"; "isometric"; "asymptotic"; "legendre"], "LOGSQUAREDFJC");
  (["physics"; "single_chain"; "ufjc"; "log_squared"; "thermodynamics"; "isometric"; "asymptotic"; "reduced"], "LOGSQUAREDFJC");
  (["physics"; "single_chain"; "ufjc"; "log_squared"; "thermodynamics"; "isometric"; "asymptotic"; "reduced"; "legendre"], "LOGSQUAREDFJC");
  (["physics"; "single_chain"; "ufjc"; "log_squared"; "thermodynamics"; "isotensional"], "LOGSQUAREDFJC");
  (["physics"; "single_chain"; "ufjc"; "log_squared"; "thermodynamics"; "isotensional"; "asymptotic"], "LOGSQUAREDFJC");
  (["physics"; "single_chain"; "ufjc"; "log_squared"; "thermodynamics"; "isotensional"; "asymptotic"; "legendre"], "LOGSQUAREDFJC");
  (["physics"; "single_chain"; "ufjc"; "log_squared"; "thermodynamics"; "isotensional"; "asymptotic"; "reduced"], "LOGSQUAREDFJC");
  (["physics"; "single_chain"; "ufjc"; "log_squared"; "thermodynamics"; "isotensional"; "asymptotic"; "reduced"; "legendre"], "LOGSQUAREDFJC");
  (["physics"; "single_chain"; "ufjc"; "log_squared"; "thermodynamics"; "isotensional"; "legendre"], "LOGSQUAREDFJC");
  (["physics"; "single_chain"; "ufjc"; "morse"], "MORSEFJC");
  (["physics"; "single_chain"; "ufjc"; "morse"; "thermodynamics"], "MORSEFJC");
  (["physics"; "single_chain"; "ufjc"; "morse"; "thermodynamics"; "isometric"], "MORSEFJC");
  (["physics"; "single_chain"; "ufjc"; "morse"; "thermodynamics"; "isometric"; "asymptotic"], "MORSEFJC");
  (["physics"; "single_chain"; "ufjc"; "morse"; "thermodynamics"; "isometric"; "asymptotic"; "legendre"], "MORSEFJC");
  (["physics"; "single_chain"; "ufjc"; "morse"; "thermodynamics"; "isometric"; "asymptotic"; "reduced"], "MORSEFJC");
  (["physics"; "single_chain"; "ufjc"; "morse"; "thermodynamics"; "isometric"; "asymptotic"; "reduced"; "legendre"], "MORSEFJC");
  (["physics"; "single_chain"; "ufjc"; "morse"; "thermodynamics"; "isotensional"], "MORSEFJC");
  (["physics"; "single_chain"; "ufjc"; "morse"; "thermodynamics"; "isotensional"; "asymptotic"], "MORSEFJC");
  (["physics"; "single_chain"; "ufjc"; "morse"; "thermodynamics"; "isotensional"; "asymptotic"; "legendre"], "MORSEFJC");
  (["physics"; "single_chain"; "ufjc"; "morse"; "thermodynamics"; "isotensional"; "asymptotic"; "reduced"], "MORSEFJC");
  (["physics"; "single_chain"; "ufjc"; "morse"; "thermodynamics"; "isotensional"; "asymptotic"; "reduced"; "legendre"], "MORSEFJC");
  (["physics"; "single_chain"; "ufjc"; "morse"; "thermodynamics"; "isotensional"; "legendre"], "MORSEFJC");
  (["physics"; "single_chain"; "wlc"], "WLC");
  (["physics"; "single_chain"; "wlc"; "thermodynamics"], "WLC");
  (["physics"; "single_chain"; "wlc"; "thermodynamics"; "isometric"], "WLC");
  (["physics"; "single_chain"; "wlc"; "thermodynamics"; "isometric"; "legendre"], "WLC");
  (["physics"; "single_chain"; "wlc"; "thermodynamics"; "isotensional"], "WLC");
  (["physics"; "single_chain"; "wlc"; "thermodynamics"; "isotensional"; "legendre"], "WLC")].

(** A model of a single chain is found below [polymers] along its directory. A
    constitutive model is found along the directory above its own. *)
Definition path (directory : list string) (name : string) : list string :=
  match directory with
  | "constitutive" :: _ => removelast directory ++ [name]
  | _ => directory ++ [name]
  end.

(** The modules of the package: every beginning of a path to a class. *)
Definition package (p : list string) : Prop :=
  exists d c q, In (d, c) sources /\ path d c = p ++ q /\ q <> [].
