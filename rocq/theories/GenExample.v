(** A concrete workspace for the non-vacuity examples: an application [app] with
    a library and two binaries, a normal dependency [liba], a build dependency
    [libb], a dev-dependency [devd], a cycle [liba] -> [libb] -> [liba], and a
    lock file. *)
From Verif Require Import Base Strings Base64 ModelTypes ConfigModel GenModel GenSpec.
From Coq Require Import NArith ZArith.
Open Scope string_scope.

Definition ex_reg := "registry+https://github.com/rust-lang/crates.io-index".
Definition ex_id_app := "path+file:///w/app#0.1.0".
Definition ex_id_a := ex_reg ++ "#liba@1.0.0".
Definition ex_id_b := ex_reg ++ "#libb@2.0.0".
Definition ex_id_d := ex_reg ++ "#devd@3.0.0".

Definition ex_pkg (id name ver : string) (src : option string) (dir : path) (ts : list cargo_target) : package :=
  mkPackage id name ver src ["A <a@b.c>"] (Some "text") (Some "MIT") None (Some "https://docs.rs") None None
    (Some "https://github.com/x/y") ts (dir ++ ["Cargo.toml"])%list.
Definition ex_app := ex_pkg ex_id_app "app" "0.1.0" None ["w"; "app"]
  [mkCTarget "app" ["lib"] ["w"; "app"; "src"; "lib.rs"]; mkCTarget "one" ["bin"] ["w"; "app"; "src"; "one.rs"];
   mkCTarget "t" ["test"] ["w"; "app"; "tests"; "t.rs"]; mkCTarget "two" ["bin"] ["w"; "app"; "src"; "two.rs"]].
Definition ex_a := ex_pkg ex_id_a "liba" "1.0.0" (Some ex_reg) ["r"; "liba"] [mkCTarget "liba" ["lib"] ["r"; "liba"; "lib.rs"]].
Definition ex_b := ex_pkg ex_id_b "libb" "2.0.0" (Some ex_reg) ["r"; "libb"] [mkCTarget "libb" ["lib"] ["r"; "libb"; "lib.rs"]].
Definition ex_d := ex_pkg ex_id_d "devd" "3.0.0" (Some ex_reg) ["r"; "devd"] [mkCTarget "devd" ["lib"] ["r"; "devd"; "lib.rs"]].
Definition ex_nodes : list node :=
  [mkNode ex_id_d [] [];
   mkNode ex_id_app [mkNodeDep ex_id_a [KNormal]; mkNodeDep ex_id_d [KDevelopment]] [ex_id_a; ex_id_d];
   mkNode ex_id_a [mkNodeDep ex_id_b [KBuild; KDevelopment]] [ex_id_b];
   mkNode ex_id_b [mkNodeDep ex_id_a [KNormal]] [ex_id_a]].
Definition ex_meta : cargo_metadata := mkMeta [ex_id_app] [ex_app; ex_b; ex_a; ex_d] (Some ex_nodes) ["w"].
Definition ex_cfg : config := mkConfig None None None None (Some (SingleTarget "x86_64-unknown-linux-gnu")) None None None None.
Definition ex_world : world := {|
  w_uri_ok := fun _ => true; w_spdx_strict := fun _ => true; w_spdx_lax := fun _ => true;
  w_email_ok := fun _ => true;
  w_purl := fun n v q s => Some ("pkg:cargo/" ++ n ++ "@" ++ v);
  w_read_file := fun _ _ => None; w_absolute := fun p => Some p;
  w_is_file := fun p => match p with ["w"; "Cargo.lock"] => true | _ => false end;
  w_lockfile := fun _ => Some [mkLock "liba" "1.0.0" (Some ex_reg) (Some "00112233445566778899aabbccddeeff00112233445566778899aabbccddeeff"); mkLock "app" "0.1.0" None None];
  w_uuid := "urn:uuid:00000000-0000-4000-8000-000000000000"; w_now := Some "2024-01-01T00:00:00Z"; w_epoch := None;
  w_format_time := fun _ => Some "1970-01-01T00:00:00Z"; w_tool_version := "0.5.7" |}.

Ltac nodup := repeat constructor; cbn; intros H; repeat (destruct H as [H|H]; [discriminate H|]); exact H.
Lemma ex_wf : well_formed ex_meta ex_nodes.
Proof.
  constructor.
  - reflexivity.
  - repeat constructor; vm_compute; intros H; repeat (destruct H as [H|H]; [discriminate H|]); exact H.
  - repeat constructor; vm_compute; intros H; repeat (destruct H as [H|H]; [discriminate H|]); exact H.
  - intros m [<-|[]]. vm_compute. tauto.
  - intros n H. repeat (destruct H as [<-|H]; [vm_compute; tauto|]). destruct H.
  - intros n d H. repeat (destruct H as [<-|H]; [cbn [n_deps]; intros Hd; repeat (destruct Hd as [<-|Hd]; [vm_compute; tauto|]); destruct Hd|]). destruct H.
  - intros n d H. repeat (destruct H as [<-|H]; [cbn [n_deps]; intros Hd; repeat (destruct Hd as [<-|Hd]; [cbn; intuition discriminate|]); destruct Hd|]). destruct H.
  - intros p H. repeat (destruct H as [<-|H]; [discriminate|]). destruct H.
Qed.

(** the SBOM the model generates for it *)
Definition ex_gen : generated :=
  match create_sboms ex_world 100 ex_meta ex_cfg with Done [g] => g | _ => mkGenerated (mkBom u32_1 None None None None None None None None None None None None V1_3) [] "" ex_cfg [] end.
Lemma ex_sboms : create_sboms ex_world 100 ex_meta ex_cfg = Done [ex_gen].
Proof. vm_compute. reflexivity. Qed.
Lemma ex_sbom_of : sbom_of ex_world 100 ex_meta ex_cfg ex_id_app ex_gen.
Proof. exists [ex_gen]. split; [exact ex_sboms|now left]. Qed.
