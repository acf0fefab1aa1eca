(** The repository's own end-to-end tests (git-lfs-transfer.rs 300-569) replayed
    on the model: same input bytes, same expected output bytes.  These are checks
    that the model behaves as the code, not properties.

    The temporary repository of each test is "/repo/.git"; the user is
    "test user", as in the transcripts before [replace_user_id]. *)
From Verif Require Import Bytes Err FS Prog Pktline Args Local Processor Transfer Sha256 Rfc3339.

Definition test_env : env := Env sha256 rfc3339 (fun _ => Some (bs "test user")) 1000.
Definition lfs_dir : path := [bs "repo"; bs ".git"; bs "lfs"].
Definition fs0 : fs := FS {[ [bs "repo"] := NDir; [bs "repo"; bs ".git"] := NDir ]} [] [].
Definition quiet_orc : orc := Orc None 0 (bs "AAAAAAAAAAAA") 0.
Definition quiet : orcs := fun _ => quiet_orc.

(** [Program::run] on an input, starting in file system [s]. *)
Definition session (op input : bytes) (s : fs) : outcome (res unit) * local * fs :=
  run 0 (transfer_run test_env 1000 lfs_dir 63 (Some 1000684800%Z) op) quiet
      (Local input [] 18 1000) s.

Definition output (x : outcome (res unit) * local * fs) : bytes := l_out x.1.2.
Definition final_fs (x : outcome (res unit) * local * fs) : fs := x.2.
Definition finished (x : outcome (res unit) * local * fs) : bool :=
  match x.1.1 with Done (Ok _) => true | _ => false end.

Definition contents (p : path) (s : fs) : option bytes :=
  match fs_open p s with
  | IOk h => match fs_read_all h s with IOk b => Some b | _ => None end
  | _ => None
  end.

Definition failed_verify_in1 : bytes := bs "000eversion 1
0000000abatch
0011transfer=ssh
001crefname=refs/heads/main
000100476ca13d52ca70c883e0f0bb101e425a89e8624de51db2d2392593af6a84118090 6
0048ce08b837fe0c499d48935175ddce784e8c372d3cfb1c574fe1caff605d4f0626 32
00000050put-object 6ca13d52ca70c883e0f0bb101e425a89e8624de51db2d2392593af6a84118090
000bsize=6
0001000aabc12300000050put-object ce08b837fe0c499d48935175ddce784e8c372d3cfb1c574fe1caff605d4f0626
000csize=32
00010024This is" ++ [Byte.x00] ++ bs "a complicated©message.
00000053verify-object 6ca13d52ca70c883e0f0bb101e425a89e8624de51db2d2392593af6a84118090
000bsize=5
0000".
Definition failed_verify_run1 := session (bs "upload") failed_verify_in1 fs0.
Definition failed_verify_out1 : bytes := bs "000eversion=1
0000000fstatus 200
00010000000fstatus 200
0001004e6ca13d52ca70c883e0f0bb101e425a89e8624de51db2d2392593af6a84118090 6 upload
004fce08b837fe0c499d48935175ddce784e8c372d3cfb1c574fe1caff605d4f0626 32 upload
0000000fstatus 200
0000000fstatus 200
0000000fstatus 409
0001002emismatched size or cryptographic collision0000".
Example failed_verify :
  finished failed_verify_run1 = true
  /\ output failed_verify_run1 = failed_verify_out1.
Proof. vm_compute. repeat split. Qed.

Definition missing_object_in1 : bytes := bs "000eversion 1
0000000abatch
0011transfer=ssh
001crefname=refs/heads/main
000100476ca13d52ca70c883e0f0bb101e425a89e8624de51db2d2392593af6a84118090 6
0048ce08b837fe0c499d48935175ddce784e8c372d3cfb1c574fe1caff605d4f0626 32
00000050put-object 6ca13d52ca70c883e0f0bb101e425a89e8624de51db2d2392593af6a84118090
000bsize=6
0001000aabc12300000050put-object ce08b837fe0c499d48935175ddce784e8c372d3cfb1c574fe1caff605d4f0626
000csize=32
00010024This is" ++ [Byte.x00] ++ bs "a complicated©message.
00000053verify-object 0000000000000000000000000000000000000000000000000000000000000000
000bsize=5
0000".
Definition missing_object_run1 := session (bs "upload") missing_object_in1 fs0.
Definition missing_object_out1 : bytes := bs "000eversion=1
0000000fstatus 200
00010000000fstatus 200
0001004e6ca13d52ca70c883e0f0bb101e425a89e8624de51db2d2392593af6a84118090 6 upload
004fce08b837fe0c499d48935175ddce784e8c372d3cfb1c574fe1caff605d4f0626 32 upload
0000000fstatus 200
0000000fstatus 200
0000000fstatus 404
0001000dnot found0000".
Example missing_object :
  finished missing_object_run1 = true
  /\ output missing_object_run1 = missing_object_out1.
Proof. vm_compute. repeat split. Qed.

Definition simple_upload_in1 : bytes := bs "000eversion 1
0000000abatch
0011transfer=ssh
0015hash-algo=sha256
001crefname=refs/heads/main
000100476ca13d52ca70c883e0f0bb101e425a89e8624de51db2d2392593af6a84118090 6
0048ce08b837fe0c499d48935175ddce784e8c372d3cfb1c574fe1caff605d4f0626 32
00000050put-object 6ca13d52ca70c883e0f0bb101e425a89e8624de51db2d2392593af6a84118090
000bsize=6
0001000aabc12300000050put-object ce08b837fe0c499d48935175ddce784e8c372d3cfb1c574fe1caff605d4f0626
000csize=32
00010024This is" ++ [Byte.x00] ++ bs "a complicated©message.
00000053verify-object 6ca13d52ca70c883e0f0bb101e425a89e8624de51db2d2392593af6a84118090
000bsize=6
00000053verify-object ce08b837fe0c499d48935175ddce784e8c372d3cfb1c574fe1caff605d4f0626
000csize=32
0000".
Definition simple_upload_run1 := session (bs "upload") simple_upload_in1 fs0.
Definition simple_upload_out1 : bytes := bs "000eversion=1
0000000fstatus 200
00010000000fstatus 200
0001004e6ca13d52ca70c883e0f0bb101e425a89e8624de51db2d2392593af6a84118090 6 upload
004fce08b837fe0c499d48935175ddce784e8c372d3cfb1c574fe1caff605d4f0626 32 upload
0000000fstatus 200
0000000fstatus 200
0000000fstatus 200
0000000fstatus 200
0000".
Example simple_upload :
  finished simple_upload_run1 = true
  /\ contents (lfs_dir ++ [bs "objects"; bs "6c"; bs "a1"; bs "6ca13d52ca70c883e0f0bb101e425a89e8624de51db2d2392593af6a84118090"]) (final_fs simple_upload_run1) = Some (bs "abc123")
  /\ contents (lfs_dir ++ [bs "objects"; bs "ce"; bs "08"; bs "ce08b837fe0c499d48935175ddce784e8c372d3cfb1c574fe1caff605d4f0626"]) (final_fs simple_upload_run1) = Some (bs "This is" ++ [Byte.x00] ++ bs "a complicated©message." ++ [NL])
  /\ output simple_upload_run1 = simple_upload_out1.
Proof. vm_compute. repeat split. Qed.

Definition invalid_hash_algo_in1 : bytes := bs "000eversion 1
0000000abatch
0011transfer=ssh
0015hash-algo=sha512
001crefname=refs/heads/main
000100476ca13d52ca70c883e0f0bb101e425a89e8624de51db2d2392593af6a84118090 6
0048ce08b837fe0c499d48935175ddce784e8c372d3cfb1c574fe1caff605d4f0626 32
0000".
Definition invalid_hash_algo_run1 := session (bs "upload") invalid_hash_algo_in1 fs0.
Definition invalid_hash_algo_out1 : bytes := bs "000eversion=1
0000000fstatus 200
00010000000fstatus 400
00010041error: not allowed: sha512 is not a permitted hash algorithm
0000".
Example invalid_hash_algo :
  finished invalid_hash_algo_run1 = true
  /\ output invalid_hash_algo_run1 = invalid_hash_algo_out1.
Proof. vm_compute. repeat split. Qed.

Definition simple_download_in1 : bytes := bs "000eversion 1
0000000abatch
0011transfer=ssh
001crefname=refs/heads/main
000100476ca13d52ca70c883e0f0bb101e425a89e8624de51db2d2392593af6a84118090 6
0048ce08b837fe0c499d48935175ddce784e8c372d3cfb1c574fe1caff605d4f0626 32
00000050put-object ce08b837fe0c499d48935175ddce784e8c372d3cfb1c574fe1caff605d4f0626
000csize=32
00010024This is" ++ [Byte.x00] ++ bs "a complicated©message.
00000053verify-object ce08b837fe0c499d48935175ddce784e8c372d3cfb1c574fe1caff605d4f0626
000csize=32
0000".
Definition simple_download_run1 := session (bs "upload") simple_download_in1 fs0.
Definition simple_download_out1 : bytes := bs "000eversion=1
0000000fstatus 200
00010000000fstatus 200
0001004e6ca13d52ca70c883e0f0bb101e425a89e8624de51db2d2392593af6a84118090 6 upload
004fce08b837fe0c499d48935175ddce784e8c372d3cfb1c574fe1caff605d4f0626 32 upload
0000000fstatus 200
0000000fstatus 200
0000".
Definition simple_download_in2 : bytes := bs "000eversion 1
0000000abatch
0011transfer=ssh
001crefname=refs/heads/main
000100476ca13d52ca70c883e0f0bb101e425a89e8624de51db2d2392593af6a84118090 6
0048ce08b837fe0c499d48935175ddce784e8c372d3cfb1c574fe1caff605d4f0626 32
00000050get-object ce08b837fe0c499d48935175ddce784e8c372d3cfb1c574fe1caff605d4f0626
0000".
Definition simple_download_run2 := session (bs "download") simple_download_in2 (final_fs simple_download_run1).
Definition simple_download_out2 : bytes := bs "000eversion=1
0000000fstatus 200
00010000000fstatus 200
0001004c6ca13d52ca70c883e0f0bb101e425a89e8624de51db2d2392593af6a84118090 6 noop
0051ce08b837fe0c499d48935175ddce784e8c372d3cfb1c574fe1caff605d4f0626 32 download
0000000fstatus 200
000csize=32
00010024This is" ++ [Byte.x00] ++ bs "a complicated©message.
0000".
Example simple_download :
  finished simple_download_run1 = true
  /\ output simple_download_run1 = simple_download_out1
  /\ finished simple_download_run2 = true
  /\ contents (lfs_dir ++ [bs "objects"; bs "ce"; bs "08"; bs "ce08b837fe0c499d48935175ddce784e8c372d3cfb1c574fe1caff605d4f0626"]) (final_fs simple_download_run2) = Some (bs "This is" ++ [Byte.x00] ++ bs "a complicated©message." ++ [NL])
  /\ output simple_download_run2 = simple_download_out2.
Proof. vm_compute. repeat split. Qed.

Definition invalid_upload_in1 : bytes := bs "000eversion 1
0000000abatch
0011transfer=ssh
001crefname=refs/heads/main
000100476ca13d52ca70c883e0f0bb101e425a89e8624de51db2d2392593af6a84118090 6
0048ce08b837fe0c499d48935175ddce784e8c372d3cfb1c574fe1caff605d4f0626 32
00000050put-object 6ca13d52ca70c883e0f0bb101e425a89e8624de51db2d2392593af6a84118090
000bsize=6
0001000aabc12300000050put-object ce08b837fe0c499d48935175ddce784e8c372d3cfb1c574fe1caff605d4f0626
000csize=32
00010024This is" ++ [Byte.x01] ++ bs "a complicated©message.
00000053verify-object 6ca13d52ca70c883e0f0bb101e425a89e8624de51db2d2392593af6a84118090
000bsize=6
00000053verify-object ce08b837fe0c499d48935175ddce784e8c372d3cfb1c574fe1caff605d4f0626
000csize=32
0000".
Definition invalid_upload_run1 := session (bs "upload") invalid_upload_in1 fs0.
Definition invalid_upload_out1 : bytes := bs "000eversion=1
0000000fstatus 200
00010000000fstatus 200
0001004e6ca13d52ca70c883e0f0bb101e425a89e8624de51db2d2392593af6a84118090 6 upload
004fce08b837fe0c499d48935175ddce784e8c372d3cfb1c574fe1caff605d4f0626 32 upload
0000000fstatus 200
0000000fstatus 400
000100aderror: corrupt data: expected oid ce08b837fe0c499d48935175ddce784e8c372d3cfb1c574fe1caff605d4f0626, got 367988c7cb91e13beda0a15fb271afcbf02fa7a0e75d9e25ac50b2b4b38af5f5
0000000fstatus 200
0000000fstatus 404
0001000dnot found0000".
Example invalid_upload :
  finished invalid_upload_run1 = true
  /\ contents (lfs_dir ++ [bs "objects"; bs "6c"; bs "a1"; bs "6ca13d52ca70c883e0f0bb101e425a89e8624de51db2d2392593af6a84118090"]) (final_fs invalid_upload_run1) = Some (bs "abc123")
  /\ contents (lfs_dir ++ [bs "objects"; bs "ce"; bs "08"; bs "ce08b837fe0c499d48935175ddce784e8c372d3cfb1c574fe1caff605d4f0626"]) (final_fs invalid_upload_run1) = None
  /\ contents (lfs_dir ++ [bs "objects"; bs "36"; bs "79"; bs "367988c7cb91e13beda0a15fb271afcbf02fa7a0e75d9e25ac50b2b4b38af5f5"]) (final_fs invalid_upload_run1) = None
  /\ output invalid_upload_run1 = invalid_upload_out1.
Proof. vm_compute. repeat split. Qed.

Definition simple_locking_in1 : bytes := bs "000eversion 1
00000009lock
000dpath=foo
001crefname=refs/heads/main
00000009lock
000dpath=foo
001crefname=refs/heads/main
0000000elist-lock
000elimit=100
0000004cunlock d76670443f4d5ecdeea34c12793917498e18e858c6f74cd38c4b794273bb5e28
0000".
Definition simple_locking_run1 := session (bs "upload") simple_locking_in1 fs0.
Definition simple_locking_out1 : bytes := bs "000eversion=1
0000000fstatus 200
00010000000fstatus 201
0048id=d76670443f4d5ecdeea34c12793917498e18e858c6f74cd38c4b794273bb5e28
000dpath=foo
0028locked-at=2001-09-17T00:00:00+00:00
0018ownername=test user
0000000fstatus 409
0048id=d76670443f4d5ecdeea34c12793917498e18e858c6f74cd38c4b794273bb5e28
000dpath=foo
0028locked-at=2001-09-17T00:00:00+00:00
0018ownername=test user
0001000dconflict
0000000fstatus 200
0001004alock d76670443f4d5ecdeea34c12793917498e18e858c6f74cd38c4b794273bb5e28
004epath d76670443f4d5ecdeea34c12793917498e18e858c6f74cd38c4b794273bb5e28 foo
0069locked-at d76670443f4d5ecdeea34c12793917498e18e858c6f74cd38c4b794273bb5e28 2001-09-17T00:00:00+00:00
0059ownername d76670443f4d5ecdeea34c12793917498e18e858c6f74cd38c4b794273bb5e28 test user
0050owner d76670443f4d5ecdeea34c12793917498e18e858c6f74cd38c4b794273bb5e28 ours
0000000fstatus 200
0048id=d76670443f4d5ecdeea34c12793917498e18e858c6f74cd38c4b794273bb5e28
000dpath=foo
0028locked-at=2001-09-17T00:00:00+00:00
0018ownername=test user
0000".
Example simple_locking :
  finished simple_locking_run1 = true
  /\ output simple_locking_run1 = simple_locking_out1.
Proof. vm_compute. repeat split. Qed.

