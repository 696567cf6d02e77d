(* Options that do not concern the decoding. *)
From Verif.Model Require Import Base Options.

(* The same options with or without feed-through *)
Definition with_feed (o : Options) (b : bool) : Options :=
  mkOptions (o_rbds o) b (o_show_partial o) (o_early_exit o) (o_init_error o)
    (o_print_usage o) (o_print_version o) (o_timestamp o) (o_bler o) (o_show_raw o)
    (o_is_rate_defined o) (o_is_num_channels_defined o) (o_use_fec o) (o_streams o) (o_samplerate o)
    (o_num_channels o) (o_input_type o) (o_output_type o) (o_loctable_dirs o) (o_sndfilename o)
    (o_time_format o).
