(** Specification vocabulary for the order of the lists inside the nodes that
    [cargo metadata] reports.  Uses the data types of GenModel but none of its
    functions. *)
From Verif Require Import Base Strings ModelTypes ConfigModel GenModel GenSpec.
From Coq Require Import Permutation.
Open Scope string_scope.
Open Scope list_scope.

(** Two node lists that differ only in the order of the nodes, of the
    dependencies inside each node, and of the kinds of each dependency. *)
Definition reordered_dep (d d' : node_dep) : Prop :=
  nd_pkg d = nd_pkg d' /\ Permutation (nd_kinds d) (nd_kinds d').
Definition reordered_node (n n' : node) : Prop :=
  n_id n = n_id n' /\ exists ds, Permutation (n_deps n) ds /\ Forall2 reordered_dep ds (n_deps n').
Definition reordered_nodes (l l' : list node) : Prop :=
  exists ns, Permutation l ns /\ Forall2 reordered_node ns l'.
(** Two SBOMs that differ only in the order of the names inside the
    [dependsOn] lists. *)
Definition with_dependencies (b : bom) (ds : list dependency) : bom := {|
  b_version := b_version b; b_serial_number := b_serial_number b; b_metadata := b_metadata b;
  b_components := b_components b; b_services := b_services b;
  b_external_references := b_external_references b; b_dependencies := Some ds;
  b_compositions := b_compositions b; b_properties := b_properties b;
  b_vulnerabilities := b_vulnerabilities b; b_signature := b_signature b;
  b_annotations := b_annotations b; b_formulation := b_formulation b;
  b_spec_version := b_spec_version b |}.
Definition same_but_dependency_order (g g' : generated) : Prop :=
  g_manifest_path g = g_manifest_path g' /\ g_package_name g = g_package_name g' /\ g_config g = g_config g'
  /\ g_target_kinds g = g_target_kinds g'
  /\ exists ds, g_bom g' = with_dependencies (g_bom g) ds
     /\ Forall2 (fun d d' => d_ref d = d_ref d' /\ Permutation (d_dependencies d) (d_dependencies d'))
          (dependency_list (g_bom g)) ds.
