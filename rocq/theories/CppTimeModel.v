(** * Model of d3plot_read_run_time (src/d3plot.c) and dro::D3plot::read_run_time
    (src/cpp/d3plot.cpp) *)
From Verif Require Import CBase BinModel D3BufModel D3Model D3ReadModel CppPartNodesModel.
Open Scope Z_scope.

(** d3plot.c:2913-2932: [localtime] is that of the C library; [None] is NULL. *)
Definition read_run_time {T} (localtime : Z -> option T) (pl : plot) : res (plot * option T) :=
  let pl := clear pl in
  do ' (pl, d) <- read_at pl 1 (pl_ptr pl K_RUN_TIME);
  OK (pl, match d with Some (v :: _) => localtime (s64 v) | _ => None end).

(** The conversion of std::chrono::seconds to the duration of
    system_clock::time_point: the nanoseconds are counted with 64 bits (libstdc++). *)
Definition nanoseconds (t : Z) : res Z := let n := t * 1000000000 in if (- 2 ^ 63 <=? n) && (n <? 2 ^ 63) then OK n else UB.
(** d3plot.cpp:453-459; a time point is its number of nanoseconds since 1970. *)
Definition cpp_read_run_time (pl : plot) : res (plot * outcome Z) :=
  do ' (pl, t) <- or_throw (read_epoch_run_time pl);
  match t with
  | Returned t => do n <- nanoseconds t; OK (pl, Returned n)
  | Throws e => OK (pl, Throws e)
  end.
