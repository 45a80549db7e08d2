(** The random walk of freely jointed links, independently of the chain functions.

    A chain of unit links whose directions are independent and uniform on the
    sphere is described in two ways: by the density of its end-to-end vector, and
    by the density of the component of that vector along an axis. *)
From Coq Require Import Reals.
From Coquelicot Require Import Coquelicot.
Open Scope R_scope.

(** Density, with respect to volume and at distance [r] from the start, of the
    end-to-end vector of [j + 2] links.  Two unit vectors in independent uniform
    directions end at a distance with density r/2 on (0, 2), that is 1/(8 pi r)
    per unit volume.  Adding one more link averages the density over the unit
    sphere around the end point: with the law of cosines, the average of [rho]
    over that sphere is the integral of s rho(s) between |r - 1| and r + 1,
    divided by 2 r. *)
Fixpoint two_links_and (j : nat) (r : R) : R :=
  match j with
  | O => if Rlt_dec r 2 then 1 / (8 * PI * r) else 0
  | S i => RInt (fun s => s * two_links_and i s) (Rabs (r - 1)) (r + 1) / (2 * r)
  end.

Definition walk_density (links : nat) (r : R) : R := two_links_and (links - 2) r.

(** Density of the component along an axis of the end-to-end vector of [i + 1]
    links: one link has a uniform component on [-1, 1] (Archimedes), and adding an
    independent link convolves with that uniform density. *)
Fixpoint one_link_and (i : nat) (z : R) : R :=
  match i with
  | O => if Rle_dec (Rabs z) 1 then 1 / 2 else 0
  | S h => RInt (one_link_and h) (z - 1) (z + 1) / 2
  end.

Definition axis_density (links : nat) (z : R) : R := one_link_and (links - 1) z.
