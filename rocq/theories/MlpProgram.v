(** examples/mlp_l4_mnist/ops.json: the program of the example, as json.load returns it (758 operations, in the order of the file).
    The fields of an operation are in the order of the file; one function for each set of fields. *)
From Verif Require Import PyBase CoreModel SystemModel LoaderModel.
From Coq Require Import String.
Open Scope Z_scope.
Local Open Scope string_scope.
Local Open Scope Z_scope.

(** For instance examples/mlp_l4_mnist/ops.json:2-9. *)
Definition o_send (mem_addr target_tile tile vec width : Z) : json :=
  JObj [("mem_addr", JInt mem_addr); ("target_tile", JInt target_tile); ("tile", JInt tile); ("type", JStr "send"); ("vec", JInt vec); ("width", JInt width)].
(** For instance examples/mlp_l4_mnist/ops.json:58-61. *)
Definition o_halt (tile : Z) : json :=
  JObj [("tile", JInt tile); ("type", JStr "halt")].
(** For instance examples/mlp_l4_mnist/ops.json:62-66. *)
Definition o_hlt (core tile : Z) : json :=
  JObj [("core", JInt core); ("tile", JInt tile); ("type", JStr "hlt")].
(** For instance examples/mlp_l4_mnist/ops.json:102-109. *)
Definition o_receive (mem_addr source_tile tile vec width : Z) : json :=
  JObj [("mem_addr", JInt mem_addr); ("source_tile", JInt source_tile); ("tile", JInt tile); ("type", JStr "receive"); ("vec", JInt vec); ("width", JInt width)].
(** For instance examples/mlp_l4_mnist/ops.json:270-278. *)
Definition o_set (core dest imm : Z) (is_address : bool) (tile vec : Z) : json :=
  JObj [("core", JInt core); ("dest", JInt dest); ("imm", JInt imm); ("is_address", JBool is_address); ("tile", JInt tile); ("type", JStr "set"); ("vec", JInt vec)].
(** For instance examples/mlp_l4_mnist/ops.json:279-287. *)
Definition o_load (core dest read tile vec width : Z) : json :=
  JObj [("core", JInt core); ("dest", JInt dest); ("read", JInt read); ("tile", JInt tile); ("type", JStr "load"); ("vec", JInt vec); ("width", JInt width)].
(** For instance examples/mlp_l4_mnist/ops.json:288-295. *)
Definition o_copy (core dest read tile vec : Z) : json :=
  JObj [("core", JInt core); ("dest", JInt dest); ("read", JInt read); ("tile", JInt tile); ("type", JStr "copy"); ("vec", JInt vec)].
(** For instance examples/mlp_l4_mnist/ops.json:296-303. *)
Definition o_mvm (core tile : Z) (xbar : list Z) : json :=
  JObj [("core", JInt core); ("tile", JInt tile); ("type", JStr "mvm"); ("xbar", JList (map JInt xbar))].
(** For instance examples/mlp_l4_mnist/ops.json:514-523. *)
Definition o_vfu2 (core dest : Z) (opcode : string) (r1 r2 tile vec : Z) : json :=
  JObj [("core", JInt core); ("dest", JInt dest); ("opcode", JStr opcode); ("read_1", JInt r1); ("read_2", JInt r2); ("tile", JInt tile); ("type", JStr "vfu"); ("vec", JInt vec)].
(** For instance examples/mlp_l4_mnist/ops.json:573-581. *)
Definition o_store (core dest read tile vec width : Z) : json :=
  JObj [("core", JInt core); ("dest", JInt dest); ("read", JInt read); ("tile", JInt tile); ("type", JStr "store"); ("vec", JInt vec); ("width", JInt width)].
(** For instance examples/mlp_l4_mnist/ops.json:917-925. *)
Definition o_vfu1 (core dest : Z) (opcode : string) (r1 tile vec : Z) : json :=
  JObj [("core", JInt core); ("dest", JInt dest); ("opcode", JStr opcode); ("read_1", JInt r1); ("tile", JInt tile); ("type", JStr "vfu"); ("vec", JInt vec)].

(** examples/mlp_l4_mnist/ops.json:1-6394 *)
Definition mlp_ops : list json := [
  o_send 768 3 0 1 16; o_send 640 3 0 8 16; o_send 512 3 0 8 16; o_send 384 3 0 8 16; o_send 256 3 0 8 16; o_send 128 3 0 8 16; o_send 0 3 0 8 16;
  o_halt 0; o_hlt 0 0; o_hlt 1 0; o_hlt 2 0; o_hlt 3 0; o_hlt 4 0; o_hlt 5 0; o_hlt 6 0; o_hlt 7 0; o_receive 0 4 1 1 10; o_halt 1; o_hlt 0 1;
  o_hlt 1 1; o_hlt 2 1; o_hlt 3 1; o_hlt 4 1; o_hlt 5 1; o_hlt 6 1; o_hlt 7 1; o_receive 2304 3 2 8 16; o_receive 2176 3 2 8 16;
  o_receive 2048 3 2 8 16; o_receive 1920 3 2 8 16; o_receive 1792 3 2 8 16; o_receive 1664 3 2 8 16; o_send 768 3 2 8 16; o_receive 2432 3 2 1 16;
  o_send 1536 3 2 8 16; o_send 1408 3 2 8 16; o_send 1280 3 2 8 16; o_send 1152 3 2 8 16; o_send 1024 3 2 8 16; o_send 896 3 2 8 16; o_halt 2;
  o_set 0 1537 2304 true 2 1; o_load 0 1537 1537 2 8 16; o_copy 0 640 1537 2 128; o_mvm 0 2 [5]; o_copy 0 1537 1408 2 128;
  o_set 0 1665 2176 true 2 1; o_load 0 1665 1665 2 8 16; o_copy 0 512 1665 2 128; o_mvm 0 2 [4]; o_copy 0 1665 1280 2 128;
  o_set 0 1793 2048 true 2 1; o_load 0 1793 1793 2 8 16; o_copy 0 384 1793 2 128; o_mvm 0 2 [3]; o_copy 0 1793 1152 2 128;
  o_set 0 1921 1920 true 2 1; o_load 0 1921 1921 2 8 16; o_copy 0 256 1921 2 128; o_mvm 0 2 [2]; o_copy 0 1921 1024 2 128;
  o_set 0 2049 1792 true 2 1; o_load 0 2049 2049 2 8 16; o_copy 0 128 2049 2 128; o_mvm 0 2 [1]; o_copy 0 2049 896 2 128; o_set 0 2177 1664 true 2 1;
  o_load 0 2177 2177 2 8 16; o_copy 0 0 2177 2 128; o_mvm 0 2 [0]; o_vfu2 0 2049 "add" 2049 768 2 128; o_vfu2 0 1921 "add" 1921 2049 2 128;
  o_vfu2 0 1793 "add" 1793 1921 2 128; o_vfu2 0 1665 "add" 1665 1793 2 128; o_vfu2 0 1537 "add" 1537 1665 2 128; o_set 0 1665 0 true 2 1;
  o_store 0 1665 1537 2 8 16; o_hlt 0 2; o_set 1 1537 2176 true 2 1; o_load 1 1537 1537 2 8 16; o_copy 1 640 1537 2 128; o_mvm 1 2 [5];
  o_copy 1 1537 1408 2 128; o_set 1 1665 2048 true 2 1; o_load 1 1665 1665 2 8 16; o_copy 1 512 1665 2 128; o_mvm 1 2 [4]; o_copy 1 1665 1280 2 128;
  o_set 1 1793 1920 true 2 1; o_load 1 1793 1793 2 8 16; o_copy 1 384 1793 2 128; o_mvm 1 2 [3]; o_copy 1 1793 1152 2 128;
  o_set 1 1921 1792 true 2 1; o_load 1 1921 1921 2 8 16; o_copy 1 256 1921 2 128; o_mvm 1 2 [2]; o_copy 1 1921 1024 2 128;
  o_set 1 2049 1664 true 2 1; o_load 1 2049 2049 2 8 16; o_copy 1 128 2049 2 128; o_mvm 1 2 [1]; o_vfu2 1 1921 "add" 1921 896 2 128;
  o_vfu2 1 1793 "add" 1793 1921 2 128; o_vfu2 1 1665 "add" 1665 1793 2 128; o_vfu2 1 1537 "add" 1537 1665 2 128; o_set 1 1665 128 true 2 1;
  o_store 1 1665 1537 2 8 16; o_set 1 1537 2432 true 2 1; o_load 1 1537 1537 2 1 16; o_copy 1 0 1537 2 16; o_mvm 1 2 [0]; o_copy 1 1537 768 2 128;
  o_set 1 1665 0 true 2 1; o_load 1 1665 1665 2 8 16; o_vfu2 1 1537 "add" 1537 1665 2 128; o_vfu1 1 1537 "relu" 1537 2 128;
  o_set 1 1665 896 true 2 1; o_store 1 1665 1537 2 8 16; o_hlt 1 2; o_set 2 1537 2048 true 2 1; o_load 2 1537 1537 2 8 16; o_copy 2 640 1537 2 128;
  o_mvm 2 2 [5]; o_copy 2 1537 1408 2 128; o_set 2 1665 1920 true 2 1; o_load 2 1665 1665 2 8 16; o_copy 2 512 1665 2 128; o_mvm 2 2 [4];
  o_copy 2 1665 1280 2 128; o_set 2 1793 1792 true 2 1; o_load 2 1793 1793 2 8 16; o_copy 2 384 1793 2 128; o_mvm 2 2 [3]; o_copy 2 1793 1152 2 128;
  o_set 2 1921 1664 true 2 1; o_load 2 1921 1921 2 8 16; o_copy 2 256 1921 2 128; o_mvm 2 2 [2]; o_vfu2 2 1793 "add" 1793 1024 2 128;
  o_vfu2 2 1665 "add" 1665 1793 2 128; o_vfu2 2 1537 "add" 1537 1665 2 128; o_set 2 1665 256 true 2 1; o_store 2 1665 1537 2 8 16;
  o_set 2 1537 2432 true 2 1; o_load 2 1537 1537 2 1 16; o_copy 2 128 1537 2 16; o_mvm 2 2 [1]; o_copy 2 1537 896 2 128; o_set 2 1665 2304 true 2 1;
  o_load 2 1665 1665 2 8 16; o_copy 2 0 1665 2 128; o_mvm 2 2 [0]; o_copy 2 1665 768 2 128; o_set 2 1793 128 true 2 1; o_load 2 1793 1793 2 8 16;
  o_vfu2 2 1665 "add" 1665 1793 2 128; o_vfu2 2 1537 "add" 1537 1665 2 128; o_vfu1 2 1537 "relu" 1537 2 128; o_set 2 1665 1024 true 2 1;
  o_store 2 1665 1537 2 8 16; o_hlt 2 2; o_set 3 1537 1920 true 2 1; o_load 3 1537 1537 2 8 16; o_copy 3 640 1537 2 128; o_mvm 3 2 [5];
  o_copy 3 1537 1408 2 128; o_set 3 1665 1792 true 2 1; o_load 3 1665 1665 2 8 16; o_copy 3 512 1665 2 128; o_mvm 3 2 [4]; o_copy 3 1665 1280 2 128;
  o_set 3 1793 1664 true 2 1; o_load 3 1793 1793 2 8 16; o_copy 3 384 1793 2 128; o_mvm 3 2 [3]; o_vfu2 3 1665 "add" 1665 1152 2 128;
  o_vfu2 3 1537 "add" 1537 1665 2 128; o_set 3 1665 384 true 2 1; o_store 3 1665 1537 2 8 16; o_set 3 1537 2432 true 2 1; o_load 3 1537 1537 2 1 16;
  o_copy 3 256 1537 2 16; o_mvm 3 2 [2]; o_copy 3 1537 1024 2 128; o_set 3 1665 2304 true 2 1; o_load 3 1665 1665 2 8 16; o_copy 3 128 1665 2 128;
  o_mvm 3 2 [1]; o_copy 3 1665 896 2 128; o_set 3 1793 2176 true 2 1; o_load 3 1793 1793 2 8 16; o_copy 3 0 1793 2 128; o_mvm 3 2 [0];
  o_copy 3 1793 768 2 128; o_set 3 1921 256 true 2 1; o_load 3 1921 1921 2 8 16; o_vfu2 3 1793 "add" 1793 1921 2 128;
  o_vfu2 3 1665 "add" 1665 1793 2 128; o_vfu2 3 1537 "add" 1537 1665 2 128; o_vfu1 3 1537 "relu" 1537 2 128; o_set 3 1665 1152 true 2 1;
  o_store 3 1665 1537 2 8 16; o_hlt 3 2; o_set 4 1537 1792 true 2 1; o_load 4 1537 1537 2 8 16; o_copy 4 640 1537 2 128; o_mvm 4 2 [5];
  o_copy 4 1537 1408 2 128; o_set 4 1665 1664 true 2 1; o_load 4 1665 1665 2 8 16; o_copy 4 512 1665 2 128; o_mvm 4 2 [4];
  o_vfu2 4 1537 "add" 1537 1280 2 128; o_set 4 1665 512 true 2 1; o_store 4 1665 1537 2 8 16; o_set 4 1537 2432 true 2 1; o_load 4 1537 1537 2 1 16;
  o_copy 4 384 1537 2 16; o_mvm 4 2 [3]; o_copy 4 1537 1152 2 128; o_set 4 1665 2304 true 2 1; o_load 4 1665 1665 2 8 16; o_copy 4 256 1665 2 128;
  o_mvm 4 2 [2]; o_copy 4 1665 1024 2 128; o_set 4 1793 2176 true 2 1; o_load 4 1793 1793 2 8 16; o_copy 4 128 1793 2 128; o_mvm 4 2 [1];
  o_copy 4 1793 896 2 128; o_set 4 1921 2048 true 2 1; o_load 4 1921 1921 2 8 16; o_copy 4 0 1921 2 128; o_mvm 4 2 [0]; o_copy 4 1921 768 2 128;
  o_set 4 2049 384 true 2 1; o_load 4 2049 2049 2 8 16; o_vfu2 4 1921 "add" 1921 2049 2 128; o_vfu2 4 1793 "add" 1793 1921 2 128;
  o_vfu2 4 1665 "add" 1665 1793 2 128; o_vfu2 4 1537 "add" 1537 1665 2 128; o_vfu1 4 1537 "relu" 1537 2 128; o_set 4 1665 1280 true 2 1;
  o_store 4 1665 1537 2 8 16; o_hlt 4 2; o_set 5 1537 1664 true 2 1; o_load 5 1537 1537 2 8 16; o_copy 5 640 1537 2 128; o_mvm 5 2 [5];
  o_copy 5 1537 1408 2 128; o_set 5 1665 640 true 2 1; o_store 5 1665 1537 2 8 16; o_set 5 1537 2432 true 2 1; o_load 5 1537 1537 2 1 16;
  o_copy 5 512 1537 2 16; o_mvm 5 2 [4]; o_copy 5 1537 1280 2 128; o_set 5 1665 2304 true 2 1; o_load 5 1665 1665 2 8 16; o_copy 5 384 1665 2 128;
  o_mvm 5 2 [3]; o_copy 5 1665 1152 2 128; o_set 5 1793 2176 true 2 1; o_load 5 1793 1793 2 8 16; o_copy 5 256 1793 2 128; o_mvm 5 2 [2];
  o_copy 5 1793 1024 2 128; o_set 5 1921 2048 true 2 1; o_load 5 1921 1921 2 8 16; o_copy 5 128 1921 2 128; o_mvm 5 2 [1]; o_copy 5 1921 896 2 128;
  o_set 5 2049 1920 true 2 1; o_load 5 2049 2049 2 8 16; o_copy 5 0 2049 2 128; o_mvm 5 2 [0]; o_copy 5 2049 768 2 128; o_set 5 2177 512 true 2 1;
  o_load 5 2177 2177 2 8 16; o_vfu2 5 2049 "add" 2049 2177 2 128; o_vfu2 5 1921 "add" 1921 2049 2 128; o_vfu2 5 1793 "add" 1793 1921 2 128;
  o_vfu2 5 1665 "add" 1665 1793 2 128; o_vfu2 5 1537 "add" 1537 1665 2 128; o_vfu1 5 1537 "relu" 1537 2 128; o_set 5 1665 1408 true 2 1;
  o_store 5 1665 1537 2 8 16; o_hlt 5 2; o_set 6 1537 2432 true 2 1; o_load 6 1537 1537 2 1 16; o_copy 6 640 1537 2 16; o_mvm 6 2 [5];
  o_copy 6 1537 1408 2 128; o_set 6 1665 2304 true 2 1; o_load 6 1665 1665 2 8 16; o_copy 6 512 1665 2 128; o_mvm 6 2 [4]; o_copy 6 1665 1280 2 128;
  o_set 6 1793 2176 true 2 1; o_load 6 1793 1793 2 8 16; o_copy 6 384 1793 2 128; o_mvm 6 2 [3]; o_copy 6 1793 1152 2 128;
  o_set 6 1921 2048 true 2 1; o_load 6 1921 1921 2 8 16; o_copy 6 256 1921 2 128; o_mvm 6 2 [2]; o_copy 6 1921 1024 2 128;
  o_set 6 2049 1920 true 2 1; o_load 6 2049 2049 2 8 16; o_copy 6 128 2049 2 128; o_mvm 6 2 [1]; o_copy 6 2049 896 2 128; o_set 6 2177 1792 true 2 1;
  o_load 6 2177 2177 2 8 16; o_copy 6 0 2177 2 128; o_mvm 6 2 [0]; o_copy 6 2177 768 2 128; o_set 6 2305 640 true 2 1; o_load 6 2305 2305 2 8 16;
  o_vfu2 6 2177 "add" 2177 2305 2 128; o_vfu2 6 2049 "add" 2049 2177 2 128; o_vfu2 6 1921 "add" 1921 2049 2 128; o_vfu2 6 1793 "add" 1793 1921 2 128;
  o_vfu2 6 1665 "add" 1665 1793 2 128; o_vfu2 6 1537 "add" 1537 1665 2 128; o_vfu1 6 1537 "relu" 1537 2 128; o_set 6 1665 1536 true 2 1;
  o_store 6 1665 1537 2 8 16; o_hlt 6 2; o_set 7 1537 2304 true 2 1; o_load 7 1537 1537 2 8 16; o_copy 7 640 1537 2 128; o_mvm 7 2 [5];
  o_copy 7 1537 1408 2 128; o_set 7 1665 2176 true 2 1; o_load 7 1665 1665 2 8 16; o_copy 7 512 1665 2 128; o_mvm 7 2 [4]; o_copy 7 1665 1280 2 128;
  o_set 7 1793 2048 true 2 1; o_load 7 1793 1793 2 8 16; o_copy 7 384 1793 2 128; o_mvm 7 2 [3]; o_copy 7 1793 1152 2 128;
  o_set 7 1921 1920 true 2 1; o_load 7 1921 1921 2 8 16; o_copy 7 256 1921 2 128; o_mvm 7 2 [2]; o_copy 7 1921 1024 2 128;
  o_set 7 2049 1792 true 2 1; o_load 7 2049 2049 2 8 16; o_copy 7 128 2049 2 128; o_mvm 7 2 [1]; o_copy 7 2049 896 2 128; o_set 7 2177 1664 true 2 1;
  o_load 7 2177 2177 2 8 16; o_copy 7 0 2177 2 128; o_mvm 7 2 [0]; o_vfu2 7 2049 "add" 2049 768 2 128; o_vfu2 7 1921 "add" 1921 2049 2 128;
  o_vfu2 7 1793 "add" 1793 1921 2 128; o_vfu2 7 1665 "add" 1665 1793 2 128; o_vfu2 7 1537 "add" 1537 1665 2 128; o_set 7 1665 768 true 2 1;
  o_store 7 1665 1537 2 8 16; o_hlt 7 2; o_receive 4184 0 3 1 16; o_receive 4056 0 3 8 16; o_receive 3928 0 3 8 16; o_receive 3800 0 3 8 16;
  o_receive 3672 0 3 8 16; o_receive 3544 0 3 8 16; o_receive 3416 0 3 8 16; o_send 640 2 3 8 16; o_send 512 2 3 8 16; o_send 384 2 3 8 16;
  o_send 256 2 3 8 16; o_send 128 2 3 8 16; o_send 0 2 3 8 16; o_receive 2520 2 3 8 16; o_send 768 2 3 1 16; o_receive 3288 2 3 8 16;
  o_receive 3160 2 3 8 16; o_receive 3032 2 3 8 16; o_receive 2904 2 3 8 16; o_receive 2776 2 3 8 16; o_receive 2648 2 3 8 16; o_send 2448 4 3 6 12;
  o_send 2320 4 3 8 16; o_halt 3; o_set 0 1537 3928 true 3 1; o_load 0 1537 1537 3 8 16; o_copy 0 640 1537 3 128; o_mvm 0 3 [5];
  o_copy 0 1665 1408 3 128; o_set 0 1793 3800 true 3 1; o_load 0 1793 1793 3 8 16; o_copy 0 512 1793 3 128; o_mvm 0 3 [4]; o_copy 0 1921 1280 3 128;
  o_set 0 2049 3672 true 3 1; o_load 0 2049 2049 3 8 16; o_copy 0 384 2049 3 128; o_mvm 0 3 [3]; o_copy 0 2177 1152 3 128;
  o_set 0 2305 3544 true 3 1; o_load 0 2305 2305 3 8 16; o_copy 0 256 2305 3 128; o_mvm 0 3 [2]; o_copy 0 2433 1024 3 128;
  o_set 0 2561 3416 true 3 1; o_load 0 2561 2561 3 8 16; o_copy 0 128 2561 3 128; o_mvm 0 3 [1]; o_vfu2 0 2433 "add" 2433 896 3 128;
  o_vfu2 0 2177 "add" 2177 2433 3 128; o_vfu2 0 1921 "add" 1921 2177 3 128; o_vfu2 0 1665 "add" 1665 1921 3 128; o_set 0 1921 784 true 3 1;
  o_store 0 1921 1665 3 8 16; o_set 0 1665 768 true 3 1; o_load 0 1665 1665 3 1 16; o_copy 0 0 1665 3 16; o_mvm 0 3 [0]; o_copy 0 1665 768 3 128;
  o_set 0 1921 2520 true 3 1; o_set 0 1922 512 true 3 1; o_store 0 1922 1537 3 8 16; o_set 0 1537 384 true 3 1; o_store 0 1537 1793 3 8 16;
  o_set 0 1537 256 true 3 1; o_store 0 1537 2049 3 8 16; o_set 0 1537 128 true 3 1; o_store 0 1537 2305 3 8 16; o_set 0 1537 0 true 3 1;
  o_store 0 1537 2561 3 8 16; o_load 0 1537 1921 3 8 16; o_vfu2 0 1537 "add" 1665 1537 3 128; o_vfu1 0 1537 "relu" 1537 3 128;
  o_set 0 1665 912 true 3 1; o_store 0 1665 1537 3 8 16; o_hlt 0 3; o_set 1 1537 4184 true 3 1; o_load 1 1537 1537 3 1 16; o_copy 1 128 1537 3 16;
  o_mvm 1 3 [1]; o_copy 1 1553 896 3 128; o_set 1 1681 4056 true 3 1; o_load 1 1681 1681 3 8 16; o_copy 1 0 1681 3 128; o_mvm 1 3 [0];
  o_copy 1 1809 768 3 128; o_set 1 1937 784 true 3 1; o_load 1 1937 1937 3 8 16; o_vfu2 1 1809 "add" 1809 1937 3 128;
  o_vfu2 1 1553 "add" 1553 1809 3 128; o_vfu1 1 1553 "relu" 1553 3 128; o_set 1 1809 1040 true 3 1; o_store 1 1809 1553 3 8 16;
  o_set 1 1553 768 true 3 1; o_store 1 1553 1537 3 1 16; o_set 1 1537 640 true 3 1; o_store 1 1537 1681 3 8 16; o_set 1 1537 3032 true 3 1;
  o_load 1 1537 1537 3 8 16; o_copy 1 640 1537 3 128; o_mvm 1 3 [5]; o_copy 1 1537 1408 3 128; o_set 1 1665 2904 true 3 1; o_load 1 1665 1665 3 8 16;
  o_copy 1 512 1665 3 128; o_mvm 1 3 [4]; o_copy 1 1665 1280 3 128; o_set 1 1793 2776 true 3 1; o_load 1 1793 1793 3 8 16; o_copy 1 384 1793 3 128;
  o_mvm 1 3 [3]; o_copy 1 1793 1152 3 128; o_set 1 1921 2648 true 3 1; o_load 1 1921 1921 3 8 16; o_copy 1 256 1921 3 128; o_mvm 1 3 [2];
  o_vfu2 1 1793 "add" 1793 1024 3 128; o_vfu2 1 1665 "add" 1665 1793 3 128; o_vfu2 1 1537 "add" 1537 1665 3 128; o_set 1 1665 1168 true 3 1;
  o_store 1 1665 1537 3 8 16; o_hlt 1 3; o_set 2 1537 2776 true 3 1; o_load 2 1537 1537 3 8 16; o_copy 2 640 1537 3 128; o_mvm 2 3 [5];
  o_copy 2 1537 1408 3 128; o_set 2 1665 2648 true 3 1; o_load 2 1665 1665 3 8 16; o_copy 2 512 1665 3 128; o_mvm 2 3 [4];
  o_vfu2 2 1537 "add" 1537 1280 3 128; o_set 2 1665 1296 true 3 1; o_store 2 1665 1537 3 8 16; o_set 2 1537 1040 true 3 1; o_load 2 1537 1537 3 8 16;
  o_copy 2 384 1537 3 128; o_mvm 2 3 [3]; o_copy 2 1537 1152 3 128; o_set 2 1665 912 true 3 1; o_load 2 1665 1665 3 8 16; o_copy 2 256 1665 3 128;
  o_mvm 2 3 [2]; o_copy 2 1665 1024 3 128; o_set 2 1793 3288 true 3 1; o_load 2 1793 1793 3 8 16; o_copy 2 128 1793 3 128; o_mvm 2 3 [1];
  o_copy 2 1793 896 3 128; o_set 2 1921 3160 true 3 1; o_load 2 1921 1921 3 8 16; o_copy 2 0 1921 3 128; o_mvm 2 3 [0]; o_copy 2 1921 768 3 128;
  o_set 2 2049 1168 true 3 1; o_load 2 2049 2049 3 8 16; o_vfu2 2 1921 "add" 1921 2049 3 128; o_vfu2 2 1793 "add" 1793 1921 3 128;
  o_vfu2 2 1665 "add" 1665 1793 3 128; o_vfu2 2 1537 "add" 1537 1665 3 128; o_vfu1 2 1537 "relu" 1537 3 128; o_set 2 1665 1680 true 3 1;
  o_store 2 1665 1537 3 8 16; o_hlt 2 3; o_set 3 1537 1040 true 3 1; o_load 3 1537 1537 3 8 16; o_copy 3 640 1537 3 128; o_mvm 3 3 [5];
  o_copy 3 1537 1408 3 128; o_set 3 1665 912 true 3 1; o_load 3 1665 1665 3 8 16; o_copy 3 512 1665 3 128; o_mvm 3 3 [4]; o_copy 3 1665 1280 3 128;
  o_set 3 1793 3288 true 3 1; o_load 3 1793 1793 3 8 16; o_copy 3 384 1793 3 128; o_mvm 3 3 [3]; o_copy 3 1793 1152 3 128;
  o_set 3 1921 3160 true 3 1; o_load 3 1921 1921 3 8 16; o_copy 3 256 1921 3 128; o_mvm 3 3 [2]; o_copy 3 1921 1024 3 128;
  o_set 3 2049 3032 true 3 1; o_load 3 2049 2049 3 8 16; o_copy 3 128 2049 3 128; o_mvm 3 3 [1]; o_copy 3 2049 896 3 128; o_set 3 2177 2904 true 3 1;
  o_load 3 2177 2177 3 8 16; o_copy 3 0 2177 3 128; o_mvm 3 3 [0]; o_copy 3 2177 768 3 128; o_set 3 2305 1296 true 3 1; o_load 3 2305 2305 3 8 16;
  o_vfu2 3 2177 "add" 2177 2305 3 128; o_vfu2 3 2049 "add" 2049 2177 3 128; o_vfu2 3 1921 "add" 1921 2049 3 128; o_vfu2 3 1793 "add" 1793 1921 3 128;
  o_vfu2 3 1665 "add" 1665 1793 3 128; o_vfu2 3 1537 "add" 1537 1665 3 128; o_vfu1 3 1537 "relu" 1537 3 128; o_set 3 1665 1808 true 3 1;
  o_store 3 1665 1537 3 8 16; o_hlt 3 3; o_set 4 1537 3288 true 3 1; o_load 4 1537 1537 3 8 16; o_copy 4 640 1537 3 128; o_mvm 4 3 [5];
  o_copy 4 1537 1408 3 128; o_set 4 1665 3160 true 3 1; o_load 4 1665 1665 3 8 16; o_copy 4 512 1665 3 128; o_mvm 4 3 [4]; o_copy 4 1665 1280 3 128;
  o_set 4 1793 3032 true 3 1; o_load 4 1793 1793 3 8 16; o_copy 4 384 1793 3 128; o_mvm 4 3 [3]; o_copy 4 1793 1152 3 128;
  o_set 4 1921 2904 true 3 1; o_load 4 1921 1921 3 8 16; o_copy 4 256 1921 3 128; o_mvm 4 3 [2]; o_copy 4 1921 1024 3 128;
  o_set 4 2049 2776 true 3 1; o_load 4 2049 2049 3 8 16; o_copy 4 128 2049 3 128; o_mvm 4 3 [1]; o_copy 4 2049 896 3 128; o_set 4 2177 2648 true 3 1;
  o_load 4 2177 2177 3 8 16; o_copy 4 0 2177 3 128; o_mvm 4 3 [0]; o_vfu2 4 2049 "add" 2049 768 3 128; o_vfu2 4 1921 "add" 1921 2049 3 128;
  o_vfu2 4 1793 "add" 1793 1921 3 128; o_vfu2 4 1665 "add" 1665 1793 3 128; o_vfu2 4 1537 "add" 1537 1665 3 128; o_set 4 1665 1424 true 3 1;
  o_store 4 1665 1537 3 8 16; o_hlt 4 3; o_set 5 1537 3032 true 3 1; o_load 5 1537 1537 3 8 16; o_copy 5 640 1537 3 128; o_mvm 5 3 [5];
  o_copy 5 1537 1408 3 128; o_set 5 1665 2904 true 3 1; o_load 5 1665 1665 3 8 16; o_copy 5 512 1665 3 128; o_mvm 5 3 [4]; o_copy 5 1665 1280 3 128;
  o_set 5 1793 2776 true 3 1; o_load 5 1793 1793 3 8 16; o_copy 5 384 1793 3 128; o_mvm 5 3 [3]; o_copy 5 1793 1152 3 128;
  o_set 5 1921 2648 true 3 1; o_load 5 1921 1921 3 8 16; o_copy 5 256 1921 3 128; o_mvm 5 3 [2]; o_vfu2 5 1793 "add" 1793 1024 3 128;
  o_vfu2 5 1665 "add" 1665 1793 3 128; o_vfu2 5 1537 "add" 1537 1665 3 128; o_set 5 1665 1552 true 3 1; o_store 5 1665 1537 3 8 16;
  o_set 5 1537 1040 true 3 1; o_load 5 1537 1537 3 8 16; o_copy 5 128 1537 3 128; o_mvm 5 3 [1]; o_copy 5 1537 896 3 128; o_set 5 1665 912 true 3 1;
  o_load 5 1665 1665 3 8 16; o_copy 5 0 1665 3 128; o_mvm 5 3 [0]; o_copy 5 1665 768 3 128; o_set 5 1793 1424 true 3 1; o_load 5 1793 1793 3 8 16;
  o_vfu2 5 1665 "add" 1665 1793 3 128; o_vfu2 5 1537 "add" 1537 1665 3 128; o_vfu1 5 1537 "relu" 1537 3 128; o_set 5 1665 1936 true 3 1;
  o_store 5 1665 1537 3 8 16; o_hlt 5 3; o_set 6 1537 1040 true 3 1; o_load 6 1537 1537 3 8 16; o_copy 6 384 1537 3 128; o_mvm 6 3 [3];
  o_copy 6 1537 1152 3 128; o_set 6 1665 912 true 3 1; o_load 6 1665 1665 3 8 16; o_copy 6 256 1665 3 128; o_mvm 6 3 [2]; o_copy 6 1665 1024 3 128;
  o_set 6 1793 3288 true 3 1; o_load 6 1793 1793 3 8 16; o_copy 6 128 1793 3 128; o_mvm 6 3 [1]; o_copy 6 1793 896 3 128; o_set 6 1921 3160 true 3 1;
  o_load 6 1921 1921 3 8 16; o_copy 6 0 1921 3 128; o_mvm 6 3 [0]; o_copy 6 1921 768 3 128; o_set 6 2049 1552 true 3 1; o_load 6 2049 2049 3 8 16;
  o_vfu2 6 1921 "add" 1921 2049 3 128; o_vfu2 6 1793 "add" 1793 1921 3 128; o_vfu2 6 1665 "add" 1665 1793 3 128; o_vfu2 6 1537 "add" 1537 1665 3 128;
  o_vfu1 6 1537 "relu" 1537 3 128; o_set 6 1665 2064 true 3 1; o_store 6 1665 1537 3 8 16; o_set 6 1537 1808 true 3 1; o_load 6 1537 1537 3 8 16;
  o_copy 6 640 1537 3 128; o_mvm 6 3 [5]; o_copy 6 1537 1408 3 128; o_set 6 1665 1680 true 3 1; o_load 6 1665 1665 3 8 16; o_copy 6 512 1665 3 128;
  o_mvm 6 3 [4]; o_vfu2 6 1537 "add" 1537 1280 3 128; o_set 6 1665 2192 true 3 1; o_store 6 1665 1537 3 8 16; o_hlt 6 3; o_set 7 1537 2064 true 3 1;
  o_load 7 1537 1537 3 8 16; o_copy 7 640 1537 3 128; o_mvm 7 3 [5]; o_copy 7 1665 1408 3 72; o_set 7 1737 1936 true 3 1; o_load 7 1737 1737 3 8 16;
  o_copy 7 512 1737 3 128; o_mvm 7 3 [4]; o_copy 7 1865 1280 3 72; o_set 7 1937 1808 true 3 1; o_load 7 1937 1937 3 8 16; o_copy 7 384 1937 3 128;
  o_mvm 7 3 [3]; o_copy 7 1937 1152 3 72; o_set 7 2009 1680 true 3 1; o_load 7 2009 2009 3 8 16; o_copy 7 256 2009 3 128; o_mvm 7 3 [2];
  o_vfu2 7 1937 "add" 1937 1024 3 72; o_vfu2 7 1865 "add" 1865 1937 3 72; o_vfu2 7 1665 "add" 1665 1865 3 72; o_vfu1 7 1665 "relu" 1665 3 72;
  o_set 7 1865 2448 true 3 1; o_store 7 1865 1665 3 6 12; o_copy 7 128 1537 3 128; o_mvm 7 3 [1]; o_copy 7 1537 896 3 128; o_copy 7 0 1737 3 128;
  o_mvm 7 3 [0]; o_copy 7 1665 768 3 128; o_set 7 1793 2192 true 3 1; o_load 7 1793 1793 3 8 16; o_vfu2 7 1665 "add" 1665 1793 3 128;
  o_vfu2 7 1537 "add" 1537 1665 3 128; o_vfu1 7 1537 "relu" 1537 3 128; o_set 7 1665 2320 true 3 1; o_store 7 1665 1537 3 8 16; o_hlt 7 3;
  o_receive 128 3 4 6 12; o_receive 0 3 4 8 16; o_send 200 1 4 1 10; o_halt 4; o_set 0 1537 128 true 4 1; o_load 0 1537 1537 4 6 12;
  o_copy 0 128 1537 4 72; o_mvm 0 4 [1]; o_copy 0 1537 896 4 10; o_set 0 1547 0 true 4 1; o_load 0 1547 1547 4 8 16; o_copy 0 0 1547 4 128;
  o_mvm 0 4 [0]; o_vfu2 0 1537 "add" 1537 768 4 10; o_set 0 1547 200 true 4 1; o_store 0 1547 1537 4 1 10; o_hlt 0 4; o_hlt 1 4; o_hlt 2 4;
  o_hlt 3 4; o_hlt 4 4; o_hlt 5 4; o_hlt 6 4; o_hlt 7 4].
