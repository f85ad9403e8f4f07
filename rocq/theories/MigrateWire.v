(** The migrate entry points of the factory, the pair and the router, from the bytes
    of the message. *)
From Verif Require Import Base BigNumber CwStd Asset Messages PairMath Pair Token Factory Router World Json Wire Storage.
From Coq Require Import Ascii String.
Local Open Scope N_scope.

(** MigrateMsg {} of packages/haloswap/src/factory.rs:63, pair.rs:88 and router.rs:94:
    an object without fields, unknown fields denied by cw_serde. *)
Definition w_migrate : json := VObj [].
Definition r_migrate (v : json) : option unit := struct [] v (fun _ => Some tt).
(** What the factory sends along, contracts/halo-factory/src/contract.rs:226. *)
Definition migrate_bytes : string := render w_migrate.

(** migrate after from_slice: contracts/halo-factory/src/contract.rs:328-332,
    halo-pair/src/contract.rs:794-798, halo-router/src/contract.rs:416-419. *)
Definition on_migrate (f : store -> res (store * response)) (s : store) (t : string) : res (store * response) :=
  match from_bytes r_migrate t with Some _ => f s | None => Err EParse end.
Definition factory_migrate_entry := on_migrate bf_migrate.
Definition pair_migrate_entry := on_migrate bp_migrate.
Definition router_migrate_entry := on_migrate br_migrate.
