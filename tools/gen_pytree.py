#!/usr/bin/env python3
"""Writes MPyTree.v and SpecPyTree.v from the register_module functions of /repo/src/**/py.rs."""
import os, re
R = '/repo/src'
T = '/verif/rocq/theories'
files = {}
for d, _, fs in os.walk(R):
    if 'py.rs' in fs:
        rel = os.path.relpath(d, R)
        files[() if rel == '.' else tuple(rel.split('/'))] = open(d + '/py.rs').read().split('\n')

def ident(p):
    return 'T_' + '_'.join(p) if p else 'T_polymers'

out, seen = [], set()
def lst(p):
    return '[' + '; '.join('"%s"' % x for x in p) + ']'

def emit(p):
    if p in seen: return
    seen.add(p)
    L = files[p]
    a = next(i for i, l in enumerate(L) if re.search(r'pub fn (register_module|polymers)\(', l))
    b = next(i for i in range(a, len(L)) if L[i] == '}')
    body = []
    for l in L[a + 1:b]:
        l = l.strip()
        if l in ('', '{', 'Ok(())'): continue
        m = re.fullmatch(r'let (\w+) = PyModule::new\(py, "(\w+)"\)\?;', l)
        if m:
            body.append("let '(%s, h) := PyModule_new \"%s\" h in" % m.groups()); continue
        m = re.fullmatch(r'super::((?:\w+::)*)py::register_module\(py, (\w+)\)\?;', l)
        if m:
            q = p + tuple(x for x in m.group(1).split('::') if x)
            emit(q)
            body.append('let h := %s.register_module %s h in' % (ident(q), m.group(2))); continue
        m = re.fullmatch(r'(\w+)\.add_submodule\((\w+)\)\?;', l)
        if m:
            body.append('let h := add_submodule %s %s h in' % m.groups()); continue
        m = re.fullmatch(r'(\w+)\.add_class::<(\w+)>\(\)\?;', l)
        if m:
            body.append('let h := add_class %s (class_of %s "%s") h in' % (m.group(1), lst(p), m.group(2))); continue
        raise Exception((p, l))
    par = 'm' if not p else 'parent_module'
    out.append('Module %s.\n(* /repo/src/%s:%d-%d *)\nDefinition %s (%s : address) (h : heap) : heap :=\n  %s\n  h.\nEnd %s.\n' %
        (ident(p), '/'.join(p + ('py.rs',)), a + 1, b + 1, 'polymers' if not p else 'register_module', par, '\n  '.join(body), ident(p)))
emit(())
unreg = set(files) - seen
assert not unreg, unreg

HEAD = '''(** How the Python package publishes its classes. Generated by tools/gen_pytree.py.

    A Python module is an object that is known by its address and has attributes. What
    PyO3 does besides setting attributes (the list [__all__], documentation, errors when
    memory runs out) is not modelled. *)
From Coq Require Import List String.
Import ListNotations.
Open Scope string_scope.
Open Scope list_scope.

Definition address := nat.
(** A class is known by the directory of the py.rs file that defines it and its name. *)
Inductive class := class_of (directory : list string) (name : string).
Inductive value := Submodule (a : address) | Class (c : class).
Record pymodule := { module_name : string; attributes : list (string * value) }.
Definition heap := list pymodule.

(** The last assignment to an attribute counts. *)
Fixpoint lookup (k : string) (l : list (string * value)) : option value :=
  match l with
  | [] => None
  | (k', v) :: l' => if String.eqb k k' then Some v else lookup k l'
  end.
Fixpoint set_attribute (a : address) (k : string) (v : value) (h : heap) : heap :=
  match h, a with
  | [], _ => []
  | m :: h', O => {| module_name := module_name m; attributes := (k, v) :: attributes m |} :: h'
  | m :: h', S a' => m :: set_attribute a' k v h'
  end.

(** PyO3: [PyModule::new], [PyModule::add_submodule], [PyModule::add_class]. *)
Definition PyModule_new (name : string) (h : heap) : address * heap :=
  (List.length h, h ++ [{| module_name := name; attributes := [] |}]).
Definition add_submodule (parent child : address) (h : heap) : heap :=
  match nth_error h child with
  | Some m => set_attribute parent (module_name m) (Submodule child) h
  | None => h
  end.
Definition add_class (a : address) (c : class) (h : heap) : heap :=
  match c with class_of _ name => set_attribute a name (Class c) h end.

'''
TAIL = '''
(** The package after it is imported: [polymers] is called on the new module. *)
Definition imported : heap := let '(m, h) := PyModule_new "polymers" [] in T_polymers.polymers m h.

(** The attribute [k1.k2. ... .kn] of the module at [a]. *)
Fixpoint attribute (h : heap) (a : address) (p : list string) : option value :=
  match p with
  | [] => Some (Submodule a)
  | k :: p' =>
      match nth_error h a with
      | None => None
      | Some m =>
          match lookup k (attributes m) with
          | Some (Submodule b) => attribute h b p'
          | Some (Class c) => match p' with [] => Some (Class c) | _ :: _ => None end
          | None => None
          end
      end
  end.
'''
open(T + '/MPyTree.v', 'w').write(HEAD + '\n'.join(out) + TAIL)

src = []
for p in sorted(files):
    for m in re.finditer(r'#\[pyclass[^\n]*\]\n(?:#\[[^\n]*\n)*pub struct (\w+)', '\n'.join(files[p])):
        src.append((p, m.group(1)))
with open(T + '/SpecPyTree.v', 'w') as f:
    f.write('''(** Where the Python classes are defined and where they should be found. Generated by
    tools/gen_pytree.py. *)
From Coq Require Import List String.
Import ListNotations.
Open Scope string_scope.
Open Scope list_scope.

(** The directories below /repo/src whose py.rs defines a class, and its name. *)
Definition sources : list (list string * string) := [
''' + ';\n'.join('  (%s, "%s")' % (lst(p), c) for p, c in src) + '''].

(** A model of a single chain is found below [polymers] along its directory. A
    constitutive model is found along the directory above its own. *)
Definition path (directory : list string) (name : string) : list string :=
  match directory with
  | "constitutive" :: _ => removelast directory ++ [name]
  | _ => directory ++ [name]
  end.

(** The modules of the package: every beginning of a path to a class. *)
Definition package (p : list string) : Prop :=
  exists d c q, In (d, c) sources /\\ path d c = p ++ q /\\ q <> [].
''')
print(len(out), len(src))
