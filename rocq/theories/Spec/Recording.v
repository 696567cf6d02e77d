(* Recordings in hexadecimal. *)
From Verif.Model Require Import Base Util Group Options.
From Verif.Spec Require Import Inputs.

(* A group whose line of hexadecimal text says all that was received of it: if block 2 was received, the type of the
   group is known (for version B groups this needs block 3); and if block 1 was lost, block 3 is not one that
   carries the programme identification instead *)
Definition recorded (g : Group) : Prop :=
  (received g BLOCK2 <> None -> g_has_type g = true) /\
  (received g BLOCK1 = None -> received g BLOCK3 <> None -> blk_offset (g_b3 g) <> OffCprime).
(* A group of which nothing was received *)
Definition missed (g : Group) : Prop := forall n, received g n = None.

(* The same options with another output format *)
Definition with_output (o : Options) (t : OutputType) : Options :=
  mkOptions (o_rbds o) (o_feed_thru o) (o_show_partial o) (o_early_exit o) (o_init_error o)
    (o_print_usage o) (o_print_version o) (o_timestamp o) (o_bler o) (o_show_raw o)
    (o_is_rate_defined o) (o_is_num_channels_defined o) (o_use_fec o) (o_streams o) (o_samplerate o)
    (o_num_channels o) (o_input_type o) t (o_loctable_dirs o) (o_sndfilename o)
    (o_time_format o).

(* Lines as a text file *)
Definition text_file (lines : list bytes) : bytes := concat (map (fun l => l ++ [10]) lines).
