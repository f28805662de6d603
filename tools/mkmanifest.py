"""Write /verif/MANIFEST.json from the claims listed below."""
import json, re, glob
CL = []
def c(prop, status, theorems, note=""):
    CL.append(dict(property=prop, status=status, theorems=theorems.split(), note=note))

c("C01", "proved", "C01_split_range C01_split_range_errors range_list_meaning")
c("C02", "proved", "C02_split_list")
c("C03", "proved", "C03_process_numbers_ranges C03_process_numbers_lists C03_process_numbers_first_queue")
c("C04", "proved", "C04_series_indices_roundtrip C04_images_indices_roundtrip C04_file_names_distinct C04_saved_files C04_saved_files_images")
c("C05", "proved", "C05_series_parts_cover C05_images_parts_cover C05_splitter_total")
c("C06", "proved", "C06_queue_is_fifo_map C06_queue_copy C06_is_name_in_values")
c("C07", "proved", "C07_sequential_chain")
c("C08", "proved", "C08_one_place")
c("C09", "proved", "C09_stops_only_when_done C09_same_as_sequential")
c("C10", "proved", "C10_can_always_finish C10_fair_executions_end")
c("C11", "partial", "C11_at_most_nb_max_workers_refuted C11_running_bound_partial C11_one_work_of_each_kind",
  "REFUTED as stated: several works can pass the test on the number of workers before any of their tasks starts. The bound nb_max_workers + (number of works of that kind) - 1 is proved for all topologies, and the stated bound when there is one work of the kind.")
c("C12", "proved", "C12_queue_bound C12_chain_queue_bound", "for schedules in which a spawned task is started before the next turn of the loop which spawned it (what trio does, the loop sleeps after a spawn)")
c("C13", "proved", "C13_sequential_stops_at_first_error C13_sequential_prefix C13_sequential_no_escape C13_async_errors")
c("C14", "proved", "C14_couples_histories C14_make_forms_all_available C14_couple_of_one_image_raises C14_async_delivers C16_sequential_couples", "the two images of a couple are different files (otherwise KeyError, shown)")
c("C15", "proved", "C15_subsets_histories C15_make_forms_all_available C15_async_delivers C16_sequential_subsets")
c("C16", "partial", "C16_refuted C16_subsets_refuted C16_sequential_couples C16_sequential_subsets C16_async_couples_iff C16_async_subsets_iff C16_async_close_couples_partial C16_async_close_subsets_partial C16_async_couples_blocked C16_async_subsets_blocked C16_async_couples_ends_partial C16_consecutive_couples_end",
  "REFUTED as stated for the asynchronous executors: they block forever when as many images as the queue limit wait for partners. Proved: the sequential executor always ends; exact characterisation (iff) of the series for which the asynchronous executors can always end when images are only read (one work before make_couples/make_subsets); for more works on images a necessary and a (stronger) sufficient condition.")

c("C17", "partial", "C17_count_partial C17_series_partial C17_before_works C17_refuted C17_no_output_refuted",
  "REFUTED as stated: a topology without series has its first work called once to count the expected results and once more as a one shot work. The exact number of calls is proved for both single process executors; exactly once when the topology has a series.")
c("C18", "proved", "C18_once C18_last C18_repeated C18_raising_final_refuted", "for executions which return normally; a final work which raises would be run again by a second call (shown)")
c("C19", "partial", "C19_no_race_partial C19_save_is_complete C19_crash_prefix_partial C19_never_repeats C19_lost_for_ever C19_no_exception C19_race_refuted C19_crash_refuted C19_mixed_kinds_refuted",
  "REFUTED as stated: a result appended by a thread between the two reads of topology.results is never recorded, and a crash between the two writes leaves a number larger than the number of names. Proved: never repeated and in order for all interleavings; exact without race; prefix at every crash point without race.")
c("C20", "partial", "C20_running C20_running_in_job_dir C20_exclusive C20_second_start_refused C20_end C20_exit C20_release_twice C20_nothing_to_do C20_same_second_refuted C20_lock_outside_job_dir_refuted",
  "REFUTED only for a second execution started by the same process in the same second; proved for all other histories of starts, ends, failures, exits and kills")
c("C22", "partial", "C22_new_dir C22_base_name C22_ask_no_dir C22_ask_partial C22_upper_case_refuted C22_path_object_refuted C22_same_params_twice_refuted C22_unknown_mode",
  "REFUTED for answers in upper case and for Path objects; the rest is proved")

c("C21", "proved", "C21_waits C21_reports_failures C21_results C21_ends_iff C21_final_once C21_final_raises_refuted C21_nothing_to_do_not_finalised",
  "a final work which raises hides the failures of the processes (shown); with nothing to do it returns without finalisation (shown)")
c("C24", "partial", "C24_least_loaded C24_at_most_four C24_one_place C24_stop_partial C24_stop_done_partial C24_premature_stop_refuted C24_unoccupied_race_refuted",
  "REFUTED as stated: the stop can be decided between the pop of an item and the start of its sending, and by a race on is_unoccupied; load balance, the bound of four and conservation proved for all interleavings of statements")
c("C56", "partial", "C56_runs_what_is_asked_partial C56_never_another C56_inconsistent C56_unknown C56_stop_if_error C56_arguments_iff C56_default_exists C56_object_refuted",
  "REFUTED for an executor object passed as argument (AttributeError, or the previous executor run again); the rest is proved")

c("C23", "partial", "C23_images_exact C23_images_resume C23_images_histories C23_sequential C23_async_interrupted C23_nothing_left C23_from_path_indices C23_piv_from_path_indices C23_series_exact C23_series_resume C23_piv_sequential C23_preproc_refuted C23_torn_file_refuted C23_same_name_refuted C23_sequential_nothing_refuted",
  "REFUTED as stated: a file created but not completely written at the kill counts as done; preprocessing subsets save all their images so that some subsets are skipped; the sequential executor with nothing to do raises AttributeError. The rest is proved for all sets of results and all interruption points.")
c("C25", "partial", "C25_process C25_can_end C25_mean C25_independent C25_overflow_refuted C25_failed_read_refuted C25_no_file",
  "REFUTED when the sum of a pixel exceeds 2^32 (uint32 sums wrap) or when an image cannot be read (AttributeError stops everything); proved otherwise for all schedules and distributions over processes; the division is modelled exactly (float64 in the code), broadcasting is not modelled")
c("C26", "partial", "C26_async_refuted C26_async_never_ends_refuted C26_sequential_refuted C26_without_im2im_partial C26_without_im2im_async_partial",
  "REFUTED with im2im (the computation reads the queue of raw arrays, the preprocessed images are never consumed); holds without im2im")

c("C27", "partial", "C27_refuted C27_one_image_refuted",
  "REFUTED: whatever the non empty set of results already saved (at least two images), neither the sequential nor the asynchronous executors ever end; a serie of one image never ends either")

c("C28","proved","C28_rejected C28_regular C28_coverage C28_windows C28_grid","int(np.round(overlap*scim)) is an arbitrary integer and pixels are integers; the window has at least one pixel; coverage needs a non negative overlap (the last interval can be shorter than a step).")
c("C29","partial","C29_difference C29_windows_partial C29_inside C29_refuted C29_loop","REFUTED as stated: near a corner a displacement larger than the padding gives negative slice bounds, hence the pixels of the opposite border, with no error (C29_refuted). Proved for displacements up to the padding, and for windows inside the padded image.")
c("C30","partial","C30_unflagged C30_flagged C30_maximum C30_whole C30_search_window C30_displacement_max C30_refuted",
  "REFUTED as stated for arbitrary windows: the reference value can be outside of the window, the index is then (0, 0), flagged as border; an all-NaN correlation gives an AssertionError which is not a PIVError. Proved for the whole array and for the windows built from displacement_max, with NaN anywhere.")
c("C31","proved","C31_inverse C31_inverse' C31_origin C31_range","all classes of correlations with an origin")
c("C32","proved","C32_reordering C32_lag C32_in_bounds","all sizes, odd and even")
c("C33","partial","C33_values C33_maximum C33_recovered_partial C33_one_pixel C33_period C33_refuted",
  "REFUTED as stated: with uniform images the maximum is not unique and an error is raised. The value at the indices of the displacement is always a maximum (C33_maximum); the displacement is recovered if the maximum is strict and not at an end of the range. Real arithmetic instead of floats.")
c("C45","partial","C45_numpy C45_half_even_partial C45_half_odd C45_half_one C45_refuted",
  "REFUTED for odd nx with the half-complex operator (the last column is counted once); proved for all sizes with numpy and for even nx with FFTW. Real arithmetic.")
c("C58","partial","C58_mask_partial C58_second_partial C58_refuted",
  "REFUTED when the first peak is closer than the radius to the first line or column: the slice is empty, nothing is removed and the second search returns the same error")
c("C59","partial","C59_second_peak_partial C59_refuted","REFUTED for the same reason: copies of the first peak are returned")
c("C60","partial","C60_direct_partial C60_default_partial C60_refuted","REFUTED for equal odd sizes: out of bounds access (IndexError)")
c("C61","partial","C61_bound C61_one C61_fftw_even_partial C61_refuted",
  "REFUTED for odd nx with the half-complex operator: the normalised autocorrelation of one bright pixel is larger than one; proved for all sizes with numpy and for even nx with FFTW. Real arithmetic.")
c("C34","proved","C34_mean C34_one_line_error","values in a commutative ring with NaN as a separate value; grids with a single line or column raise IndexError (C34_one_line_error)")
c("C35","partial","C35_fix C35_peaks C35_final C35_no_threshold_refuted C35_peaks_no_threshold_refuted C35_displacement_max_refuted","REFUTED as stated without threshold_diff_neighbour (the values of the removed vectors are not kept, and with several peaks the computation fails); proved in full when a threshold is given, on grids with at least two lines and columns; the subpixel estimator is a parameter assumed to raise only PIVError")
c("C36","partial","C36_close_partial C36_error C36_boundary C36_refuted C36_centroid C36_gaussian C36_flat_refuted C36_gaussian_exact","REFUTED as stated: a NaN position is returned (a comparison with NaN is False) for a zero or a flat correlation; otherwise the position is within sqrt(2) (n + 1/2) of the peak or PIVError is raised; on a Gaussian peak the 2d_gaussian method is exact; extended reals (with NaN and infinities) without rounding")
c("C37","proved","C37_windows C37_wrong_length C37_wrong_length_error C37_scalar C37_numpy_int C37_integers C37_correl C37_calcul","exact rational arithmetic instead of floats")
c("C38","partial","C38_names_partial C38_same_shape_one C38_same_shape_second C38_same_shape_first C38_two_numbers_refuted C38_two_letters_refuted C38_step_refuted C38_three_indices C38_defined C38_bos_name C38_bos","REFUTED as stated: the name of a PIV file has no separator between the indices and ignores the step, so couples of different shapes may collide, and a series with three indices has no name; proved for couples of the same shape (those of one run), for series with one index, with a number and a letter, or with two numbers of fixed width, and for the BOS names")
c("C39","partial","C39_heavy_partial C39_multipass_partial C39_no_pass C39_stable C39_codes C39_string_keys_refuted C39_subdomains_refuted","REFUTED as stated for the thin-plate-spline data of eleven subdomains or more (read in alphabetical order, for every such result); everything else is restored, float64 arrays in single precision; any number of passes; the parameters and the couple are those of the first pass; HDF5 is modelled as groups with sorted names")
c("C40","partial","C40_final C40_other_passes C40_refuted C40_last_by_index C40_file C40_multipass_file_partial C40_multipass_file_refuted","REFUTED as stated for the passes other than -1 (y is a copy of x) and when reading a file with 11 to 90 passes (the tenth pass is read as the last one); proved for the last pass, for the file of a light result and for files with at most ten passes")
c("C41","partial","C41_calcul C41_disjoint_partial C41_order_refuted C41_complete_singletons C41_resume_singletons C41_complete_disjoint C41_overlap_complete_refuted C41_interruption_refuted C41_step_refuted","REFUTED as stated: each subset saves all its images (ind_serie and nb_series are not given), so that the file of an image shared by two subsets depends on the order, an unprocessed subset may be considered as done, and so may be a subset interrupted between its files; proved for subsets without common images (files) and for subsets of one image (mode complete, any interruption); format img")
c("C42","partial","C42_log_partial C42_durations_partial C42_total C42_same_key_refuted C42_space_refuted C42_nothing_refuted","REFUTED as stated: a key with a space (name of an image) or a work done several times with the same key (kind global) gives wrong or lost durations, and an execution with nothing to compute cannot be analysed; proved for all the logs with names and keys without white space, any interleaving of the lines and any other harmless lines, and any number of logs of processes")
c("C43","partial","C43_shift C43_own_default_partial C43_next_default C43_no_default C43_init_refuted","REFUTED as stated: for the __init__ of the topologies each argument gets the default of the next one and the last one is missing (C43_next_default, C43_init_refuted); proved for compute, and exact characterisation for all the signatures (C43_shift)")
c("C44","partial","C44_long C44_short C44_sixty_refuted C44_hours_refuted","REFUTED as stated: a duration just below one minute is printed 60.00 s and the hours are not bounded by 24; proved: the text reads back as the duration, with minutes and seconds in [0, 60) from one minute on, and within 5 ms below; exact arithmetic on rationals")
c("C46","partial","C46_kept C46_partial C46_refuted","REFUTED as stated: the list is modified during the iteration, one handler out of two stays; all the handlers are removed if and only if there is at most one")
c("C47","proved","C47_reshape C47_one_row_refuted C47_one_column_refuted","for the quantified grids (at least two columns and two rows); with one row or one column IndexError is raised")
c("C48","partial","C48_square_partial C48_square_refuted","REFUTED as stated for fields with more rows than columns (the last row is computed from the first column), with the exact shape of the result; proved (square, inside, centred, values) when there are at least as many columns as rows")
c("C62","proved","C62_orientation C62_from_piv","two-component fields without z; at least two points in each direction")
c("C63","proved","C63_extract_indices C63_extract_phys C63_truncate","two-component fields without z")
c("C64","partial","C64_average C64_other_grids_refuted C64_one_line_refuted C64_empty","REFUTED as stated for fields on different grids of the same shape (the coordinates of the others are ignored) and for fields of one line (IndexError); proved for fields on a common grid with at least two points in each direction; exact rational arithmetic")
c("C65","partial","C65_fresh_partial C65_view_refuted","REFUTED as stated for the functions which return a view on their argument: the x component of the result is then the one of y; proved for the functions which return new arrays")
c("C66","proved","C66_rotz C66_divh C66_small","exact rational arithmetic, regularity of the grid as exact equality; ValueError with two points in one direction")
c("C67","partial","C67_waves C67_omega_step C67_psd_partial C67_doc_refuted C67_psd2","REFUTED as documented: the sum of the power spectral density is half of the mean of the square of the signal, for every nonzero signal; the coefficients and pulsations are proved to describe the signal. Real arithmetic.")
c("C49","partial","C49_distance_iff C49_distance_refuted C49_origin C49_displacement C49_aspect","REFUTED as stated for pixels which are not square: the distance between the two points is the given one exactly if the aspect ratio is 1 or the points are on a diagonal; origin and displacements proved. Real arithmetic")
c("C50","partial","C50_roundtrip_flipped C50_roundtrip_partial C50_physical_roundtrip C50_distortion_iff C50_tilted_refuted C50_tilted_point C50_fourth_slice_refuted","REFUTED as stated: the returned line is nbypix - Y (pix2phys flips the image and phys2pix does not), a radial distortion is not inverted, a tilted slice without refraction raises UnboundLocalError and the slices after the third one raise IndexError without angles; exact round trip up to the flip proved for kc = 0. Real arithmetic")
c("C51","proved","C51_intersection C51_unique C51_displacement C51_plane C51_plane_error","real arithmetic; the interpolators of the optical paths are arbitrary functions")
c("C68","partial","C68_common_x C68_common_y_partial C68_outside_refuted C68_grid_on_plane","REFUTED as stated: the largest y of camera 0 is ignored, the grid can go out of its field; x proved, y proved when the field of camera 0 goes at least as high. Real arithmetic, no NaN")
c("C69","partial","C69_base C69_base_matrices C69_reconstruction_exact C69_same_axis_refuted C69_reconstruction_fails_iff","REFUTED as stated: the object cannot be built (singular matrix) for two cameras tilted around the same axis, and the reconstruction fails when the lines of the bases are within 10 degrees; exact otherwise. Real arithmetic, cameras with parallel optical paths")
c("C57","partial","C57_grid C57_grid_size C57_alignment C57_same_z C57_limits_refuted C57_limits_partial C57_linspace","REFUTED for the limits: ymin is overwritten by the lower limit of z and zmin does not exist; the alignment of the grid and of the pixels is proved for distinct heights, ValueError for equal heights; cv2.projectPoints is an arbitrary function")
c("C70","partial","C70_plot_slices_iff C70_heights","REFUTED as stated: true exactly if there is a single height or a single voxel per height")
c("C71","partial","C71_memory C71_file C71_old_file_refuted C71_order","REFUTED if the file exists at the beginning: it is multiplied by the new intensities; proved in memory and for a new file; interpolation and power are arbitrary functions")
c("C72","partial","C72_image_points C72_object_points_iff C72_object_points","REFUTED as stated for targets which are not square: the object points are the ones of a target of ny by nx circles; proved exactly for square targets")
c("C52","partial","C52_covered_partial C52_no_buffer_iff C52_smoothed_partial C52_no_buffer_nan C52_interpolate_at_centers C52_interpolate C52_affine C52_weights C52_covered_refuted","REFUTED as stated for percent_buffer_area=0: the points with the largest coordinate are in no subdomain and get nan; proved for every positive buffer; real arithmetic, np.linalg.solve by its contract")
c("C73","proved","C73_interpolation C73_field_at_centers C73_moments C73_affine","real arithmetic, np.linalg.solve by its contract")
c("C74","partial","C74_gradient_partial C74_gradient_iff C74_gradient_refuted","REFUTED as stated: the two coefficients of the linear part are swapped in the matrices of the derivatives; exact value of the returned gradient proved")
c("C75","partial","C75_no_erratic C75_ends C75_threshold_refuted","REFUTED for threshold=None (never succeeds); proved otherwise, at most 11 resolutions")
c("C53","partial","C53_parse C53_round_trip C53_crop_partial C53_positions_iff C53_positions_refuted C53_apply_once C53_failed_mask_refuted","REFUTED as stated for crops with negative starts or steps (the conversion only uses the start) and for crops of the lines only; exact condition proved; round trip proved for all crops; masking applied exactly once in every history without failed crop")
c("C54","partial","C54_series_Di C54_pair C54_series_Dj_refuted C54_pair_ignored_refuted C54_accepted_iff C54_defaults C54_window C54_tidy","REFUTED for series(Dj) (missing f prefix: no image can be computed) and for pairs other than (i, i+1) in series(Di); proved for (i, i+1) and for j= a-b; the meaning of str_subset (fluiddyn) is our reading")
c("C55","partial","C55_order C55_default C55_subclass_refuted C55_stack_tool C55_stack_sequence_partial C55_stack_sequence_refuted","order and enabling proved; one tool on a stack proved; REFUTED for sequences of tools on a stack (the first tool converts the stack to float64), proved for tools which do not depend on the dtype")
c("C76","partial","C76_window_iff C76_window_partial C76_window_refuted","REFUTED for an int (not checked) and for a list of two numbers (TypeError); exact result proved")
c("C77","partial","C77_sliding_partial C77_between C77_integer_weight_refuted C77_integer_weight_iff C77_temporal C77_temporal_negative_refuted","REFUTED for an integer weight on integer images (wrap around) and for the temporal filters (no clipping); proved for float weights or float images; filters of scipy are arbitrary functions")
c("C78","partial","C78_threshold_partial C78_default_maxima C78_threshold_refuted","REFUTED for float thresholds on integer images (truncated) and thresholds which are not values of the dtype (OverflowError); proved otherwise")
c("C79","partial","C79_once_partial C79_missing_refuted C79_complete_name","REFUTED as stated: with two indices and an even number of values of the first one an image is saved by no subset (get_ind_middle subtracts 1 instead of Nj); proved with one index or an odd number of values")
c("C80","partial","C36_gaussian_exact C80_gaussian2_transpose C80_gaussian2_mirror C80_gaussian2_fit C80_gaussian2_refuted","REFUTED for 2d_gaussian2 (an offset is subtracted before the logarithm: the peak of an exact Gaussian is displaced); proved for 2d_gaussian; for 2d_gaussian2: symmetries, and exactness when the logarithms of the normalised crop are a polynomial of degree 2")
c("C81","partial","C81_sequential C81_async_delivers C81_async_ends_partial C81_async_blocked C81_async_refuted","REFUTED for the asynchronous executor with more images than the limit of the queues (the first image is overtaken, the queue of angles is full and nothing can leave it); proved for the sequential executor; for the asynchronous one: each call exactly once with the right arguments when it ends, and it can always end when there are not more images than the limit")
c("C82","proved","C82_correction C82_pixel_in_array C82_series C82_infinite_refuted","For finite phases at the reference pixel (np.unwrap(np.angle(...)) gives finite values or NaN); with an infinite one the loop never ends (C82_infinite_refuted).")
c("C83","partial","C83_height_of_phase C83_heights_of_given_phases C83_reference C83_correct_pos_refuted C83_smoothing_fails_iff C83_reference C83_no_reference_refuted","REFUTED as stated: correct_pos changes nothing because all the displacements are set to zero (dX[:-1] = 0), the discarded smoothing raises ValueError for lines with a NaN, and without reference images the constructor raises AttributeError after the warning. Proved: inverse of the optical relation, heights of the phases as given, height of the reference.")
c("C84","partial","C84_float_frames C84_illumination C84_integer_two_levels C84_integer_refuted","REFUTED for images of integers: the divided values are truncated when written in the frame (normalised before the conversion to floats), an image whose intensities are less than twice the mean of their line becomes an image of two levels. Proved for arrays of floats.")
c("C85","partial","C85_whole_frames C85_cropped_frame_partial C85_borders C85_borders_majority C85_cropped_frames_refuted C85_twice_refuted","REFUTED with crop_edge: the reference frame is overwritten by each image (calc_frame = self.ref is not a copy). Proved without cropping; with cropping: borders found, columns of the plate; the other columns, and always the last one, come from the reference frame as left by the previous image.")
c("C86","partial","C86_borders_zero_partial C86_no_border_refuted C86_last_column_refuted C86_left_refuted","REFUTED as stated: borders = 0 raises ValueError (slice 0:-0), the last column inside the borders is never used, and a plate which begins before the window gives a negative bound (no column). Proved: the zeros, and the other columns are those made by resize.")
c("C87","partial","C87_never_too_many C87_running C87_after_end_partial C87_last_update_partial C87_late_process_refuted C87_label_refuted C87_no_file_refuted C87_decreasing_refuted C87_frozen_refuted C87_crash_refuted C87_duration_refuted C87_sequential_refuted","REFUTED as stated: processes whose file appears after the start of the monitor are never counted, the label never changes to the end of the job, the number can go down (file read during its rewriting) or stay too small for ever, time_end.txt can be read empty (ValueError), the duration can be that of the clock of the monitor. Proved: never too many results, 'Running: False' only after the end, exact display when the monitor is started after the end, exact last update when all files existed.")
c("C88","partial","C88_largest_name C88_last_started_partial C88_same_second_refuted C88_other_entry_refuted","REFUTED as stated: jobs started in the same second are ordered by the texts of the process numbers, and any entry like job_notes.txt hides the jobs. Proved: the choice is the largest name, which is the last started job when the starting seconds differ and no other entry starts with job_.")
c("C89","partial","C89_result C89_can_end C89_no_message_refuted C89_twice_refuted C89_stale_event_refuted C89_fail_refuted C89_fail_partial","REFUTED as stated: a result which cannot be pickled (or a death) blocks the parent for ever, the function can be called several times on one item, the event of a terminated process is taken for the start of the next one, RuntimeError may be raised although the result is in the pipe. Proved: the result given is that of the function, no process still runs then, the parent can always end when a message is sent.")
c("C90","partial","C90_processes C90_errors C90_global_refuted C90_global_waits","REFUTED as stated: the tuples of input queues become lists, so that a global work with several input queues does not wait for items and is called with all its queues empty. Proved: each item in exactly one process, order, balance, same topology with the new queue, other queues unchanged, for every topology.")
c("C91","partial","C91_same_directory_partial C91_new_dir_refuted C91_ask_refuted","REFUTED as stated: with new_dir each process creates another directory (or raises TypeError if the path is read as a Path); with the mode ask kept by an answer in upper case each process asks again. Proved for recompute, complete and from_path_indices.")
c("C92","partial","C92_progress C92_exact C92_crash_refuted","REFUTED only when a process dies between the two writes of its results (the number goes down at the end). Proved: strictly increasing, bounded by the number of results, first result announced once, exact total when the processes have written their final numbers.")
c("C93","partial","C93_same_size_partial C93_first_grid C93_refuted","REFUTED as stated: the grid of the first images is kept, so that larger images given later are covered only partly. Proved for images of the same size, for every history (with errors or not); C93_first_grid says which grid is used in general. The correlation, the interpolations and the step fix are parameters.")
c("C94","partial","C94_values C94_only_nan C94_smooth C94_passes C94_errors C94_no_final_refuted","REFUTED only for the last sentence: without any valid vector in the last pass the result has no final field (in a previous pass: InterpError). Everything else is proved for all parameters; scipy griddata, the thin plate splines (C52, C73-C75), the correlation and the step fix (C35) are parameters of the model.")
c("C95","partial","C95_vectors C95_no_feature_refuted C95_filter_iff C95_motionless_refuted C95_lost_refuted","REFUTED as stated: the status given by OpenCV is not read (a lost feature may be in the result), motionless features are removed when only a maximum is given, and images without feature raise an exception. Proved: the vectors are exactly the features which pass the filters of the code, and exactly when these filters are the documented ones. The OpenCV functions are parameters.")
c("C96","partial","C96_digits C96_cores C96_physical_iff C96_refuted C96_import_refuted C96_workers","REFUTED as stated: the number is halved exactly when it is twice the number of threads of one processor, which is the number of physical cores only for machines with two processors and two threads per core, or without hyperthreading and not two processors (C96_physical_iff); true/false in lower case or a file status without the line make the import fail. Proved: exact result for every mask with commas and every machine.")
c("C97","partial","C97_sequential C97_async C97_distinct_files C97_init C97_filter C97_process_refuted C97_other_refuted C97_path_refuted C97_names_refuted","REFUTED as stated: process_1_image calls the function with (image, name) instead of (name, image); the topology gives the name of the file where the filter gives its path; callable objects which are not functions or classes raise UnboundLocalError; the names given with arrays are ignored. Proved: one call per image which can be read with (name, image), files written, for the sequential executor and every schedule of the asynchronous one; alignment of the filter.")
c("C98","partial","C98_point_iff C98_direction_partial C98_all_levels C98_undefined_iff C98_missing_level_refuted C98_points contains_iff C98_grid C98_no_line_refuted","REFUTED as stated: the mean height is computed with all the levels but the mean position only with the levels which see the pixel, so that the line is wrong as soon as a level which does not see the pixel changes the mean height (C98_point_iff is the exact condition). Proved when all levels see the pixel (C98_all_levels) and in general when the means agree. The SVD is specified by its mathematical properties; the SciPy interpolators are parameters.")
c("C99","partial","C99_history_partial C99_blank_refuted C99_switch C99_index C99_unreadable_refuted C99_step_refuted C99_reload_refuted C99_limits_partial C99_limits_refuted","REFUTED as stated: a move of a multiple of the number of images hides the image; an image reloaded stays above the images loaded before; after an unreadable image or a non-integer n no move changes the image any more; the text boxes round the colour limits used for the next images. Proved: exact image seen for every history without reload, with readable images and integers n; index in range for every history; limits when they have two decimals.")
c("C100","partial","C100_refused C100_passes C100_passes_refuted C100_light C100_index C100_shown_partial C100_positions_refuted C100_unreadable_refuted C100_size_refuted","REFUTED as stated: the positions of the arrows stay those of the first file; with 11 to 90 passes the group chosen is not the last pass (names sorted as texts) and the file cannot be read; after an unreadable file the number in the box is not the one of the figure; with another number of vectors the title is not the one of the vectors. Proved: index and text of the box for every history; title and vectors when all files can be read with the same number of vectors.")
c("C101","partial","C101_no_crop C101_defined C101_index C101_multipass C101_approximate C101_crop C101_crop_refuted C101_crop_iff C101_shapes_refuted","REFUTED as stated: with a crop the grid is recomputed for the whole image and without the offset of the crop (exact condition: C101_crop_iff); with images of different shapes in a series the vectors keep the grid of the first image. Proved without a crop for every series of images of the same shape, every pass and every index; distance to the grid in the displaced passes for all displacements.")
c("C102","partial","C102_index_iff C102_index_range C102_file C102_cwd_refuted C102_missing_refuted C102_treated_index C102_treated_outside C102_treated_other C102_subdirectory_refuted C102_relative_refuted C102_padded C102_unpadded_refuted","REFUTED as stated: the integer is a rank among the names sorted as texts, thus another image as soon as the numbers have no leading zeros (exact condition: C102_index_iff); a file of the current directory hides the one of the images; a missing file raises a TypeError; with a reference in a subdirectory the image with the same name is skipped; with a relative path the reference is compared with itself. Proved for fixed-width numbers, absolute paths and names found in the directory of the images only; images treated for every integer reference and every reference outside the directory.")
c("C103","partial","C103_window C103_reflect C103_constant C103_interior C103_median_valid C103_gaussian_valid C103_not_valid C103_loaded_refuted C103_iterations_refuted C103_gaussian_vz_refuted","REFUTED as stated; proved: for one iteration the values of vx and vy returned with valid=True are those of the filtered physical field whatever it is outside of the domain (and vz for the median filter), for k iterations the values at k half windows of the borders. False: with more than one iteration valid=True removes the points for one window only, gaussian_filter does not filter vz, median_filter raises for a field read from a file (vz of dimension zero)")
c("C104","partial","C104_constructor C104_coordinates_increase C104_roundtrip C104_idempotent C104_z_none_refuted C104_one_column_refuted C104_vz_refuted C104_class","REFUTED as stated; proved for all reachable fields with two lines and two columns at least and a vertical coordinate. False: a field without z (made from a PIV file) cannot be saved and the file is lost, a field with one column is saved but not read, vz is read as an array of dimension zero so that the grid cannot be regularized")
c("C105","partial","C105_values C105_third_component C105_operators_refuted C105_extract C105_history C105_number_iff C105_grids_refuted","REFUTED as stated; the values, the extraction and the history are proved. False: the operators forget names, units, history and parameters, and do not look at the grid of the second field")
c("C106","partial","C106_iff C106_success C106_already C106_failure_refuted C106_extract_refuted C106_extract_regular","REFUTED as stated; proved: exact condition of success, what is removed, and the steps of a part of a regular grid. False: a call that raises may have removed the last column, a regular part of an irregular grid is said irregular")
c("C107","partial","C107_same_slices C107_step C107_default_step C107_refused C107_skip_refuted C107_skip_raises_refuted","REFUTED as stated; proved for a step, for the default and for the same slice on both axes. False for two different slices: the slice of the lines chooses x, so that arrows are drawn at the position of other points or the call raises")
c("C108","partial","C108_times C108_no_times C108_times_iff C108_append_refuted C108_lost_refuted C108_items C108_no_item C108_extend_and_parts C108_extend_array C108_extend_self_iff C108_extend_self_refuted C108_operations C108_display_refuted C108_display_step","REFUTED as stated; the items, the operations and the times given by set_timestep are proved. False: the times are not updated when the number of fields changes, are lost by parts and operations, extending an array by itself never ends, and display with its default arguments always raises TypeError")
c("C109","partial","C109_same_directory C109_new_dir_refuted C109_types C109_no_server_refuted","REFUTED as stated; the servers use the directory of the computation and ask nothing unless saving.how is new_dir (C109_same_directory); with new_dir every server raises TypeError when it starts (C109_new_dir_refuted); a server in a thread changes ask into complete in the parameters of the caller (C109_types); with nb_max_workers = 0 there is no server and the computation never ends (C109_no_server_refuted)")
c("C110","partial","C110_in_order C110_own_connection C110_all_answered C110_no_failure C110_after_failure C110_stop_refuted C110_one_job_refuted C110_name_refuted C110_lost_answer_refuted","REFUTED as stated; order, unicity and contents of the answers hold in all executions, and all the jobs are answered when each has an answer which can be pickled; but a job of an unknown work, with a result which cannot be pickled or which calls sys.exit stops the server and the next jobs are never answered, then the executor never stops; a work called __t_start__ is never done; the event does not end the tasks of a server")
c("C111","partial","C111_grid C111_grid_iff C111_no_steps_refuted C111_values C111_rotation_refuted C111_edge_order_refuted C111_div_fresh C111_rot_after_div C111_stale_refuted C111_display C111_norm_refuted C111_series_refuted C111_time","REFUTED as stated; the vectors are at their places if and only if the file gives the points line by line in increasing order (C111_grid, C111_grid_iff). The object never has dx and dy, so the curl and the divergence fail (C111_no_steps_refuted); with steps given by the user the derivatives along x and y are exchanged: C111_values gives the exact value for polynomials, C111_rotation_refuted the curl 0 of every rotation. edge_order is ignored, the curl is remembered when the velocities change (C111_stale_refuted; the divergence is not, C111_div_fresh), the norm ignores its arguments, and no series can be constructed (C111_series_refuted).")
c("C112","partial","C112_first C112_again_partial C112_multi_async_refuted C112_multi_async_iff C112_complete_partial C112_complete_subproc C112_removed_again C112_never_back C112_removed_refuted C112_retry_refuted C112_images_refuted C112_images","REFUTED as stated; the first call is right with every executor (C112_first), and all calls of any history without multi_exec_async (C112_again_partial; with 'complete', if no result is removed, C112_complete_partial, or with subprocesses only, C112_complete_subproc). multi_exec_async leaves in the topology the part of its last process: the next call treats max(1, N/n) series over N (C112_multi_async_refuted, all of them iff n = 1 or N = 1), the failures of the other parts are not treated again (C112_retry_refuted), and topologies on images lose their first work (C112_images_refuted). With 'complete' a result removed after the first call is not computed again (C112_removed_refuted). What SeriesOfArrays.items and set_index_series of the package fluiddyn do is an assumption of the model.")
c("C113","partial","C113_workers C113_range C113_filter_iff C113_filter_refuted C113_durations C113_spike_refuted C113_negative_refuted C113_memory C113_memory_refuted","REFUTED as stated; the height of the curve at every time is proved to be the number of executions going on (C113_workers), its points are in [0, number of executions] when no duration is written 0.000 (C113_range), the figure of the durations is proved (C113_durations). Refuted: vertical lines above the number of simultaneous executions when one begins at the time another ends, negative points for durations written 0.000 with an order of equal times numpy allows, KeyError as soon as str_names excludes one work (exact condition in C113_filter_iff), line of the memory going backwards with several process files.")
c("C114","partial","C114_arrows C114_click C114_correl C114_without_correl C114_shown C114_keys_iff C114_images C114_pure C114_modified_iff C114_marks C114_no_displacement_iff C114_vector0_refuted C114_keys_refuted C114_modified_refuted C114_no_displacement_refuted C114_interp_partial C114_interp_refuted","REFUTED as stated; proved: the arrows drawn, the text and the point after any history (with the exact exception of the vector 0), the marks of the correlation, the switch of the images, the result unchanged with images. Refuted: first click on the vector 0, alt+left/alt+right, display without images changes the result, mark of the absence of displacement for a correlation which is not square, show_interp.")
c("C115","partial","C115_history C115_separable_iff C115_reports C115_slash_iff C115_messages C115_stop C115_topologies C115_collision_refuted C115_slash_refuted","REFUTED as stated; proved for every schedule: exactly the reports of the failures when the names of the works are separable (true for the topologies of fluidimage), the messages of the last work, stop_if_error; exact condition of the collisions and of the FileNotFoundError. Refuted: works whose files collide; keys with a slash.")
c("C116","partial","C116_tanh C116_tanh_order C116_tanh_nan C116_tanh_formula_refuted C116_default_iff C116_default_used C116_default_refuted C116_rescale C116_rescale_uniform C116_factor_iff C116_factor_refuted C116_equalize_iff C116_adaptive_refuted C116_sharpen C116_sharpen_iff C116_sharpen_float",
"REFUTED as stated. tanh: each pixel x becomes floor(max * tanh(x/T)/tanh(max/T)), the order is kept and the maximum is the one of the image whatever the threshold (so neither the documented formula nor 'the maximum is set by the threshold'); an image with maximum 0 becomes nan; the default threshold is 2*rms iff no square overflows the dtype (pixels <= 15 for uint8), and a uint8 image of multiples of 16 is returned unchanged. rescale_intensity: affine, exact range unless the image is uniform; a factor iff the ranges are proportional. Equalisation: range kept iff the equalised image is not uniform. adaptive_threshold returns the threshold image. sharpen: for unsigned images the formula holds iff the second filter brightens no pixel. Real arithmetic without rounding; filters of scipy and skimage are parameters.")
c("C117","partial","C117_nodes C117_links C117_links_iff C117_bare_refuted C117_apart_iff C117_quote_refuted C117_file C117_history C117_refused_refuted",
"REFUTED as stated for three cases, exact conditions given: links are right iff no QueueList is given outside of a tuple (then the link is missing, or AttributeError when it has items); two elements with the same name are one node; a name with a quotation mark breaks its line; a refused work stays in the list of the works. Otherwise the file, read with an independent reader of dot lines, has exactly the nodes and links.")
c("C118","partial","C118_max C118_percent C118_fft_iff C118_fft_points C118_pythran_iff C118_pycuda_iff C118_range C118_ndimage C118_signal C118_signal_iff C118_signal_refuted C118_valid_iff C118_norm C118_light C118_light_refuted","REFUTED as stated; C118_max says for each method what a number given as displacement_max does (fft: exactly the limit; scipy: ignored; pythran/pycuda: UnboundLocalError), C118_percent the percentages, C118_fft_iff and C118_pythran_iff which shapes are possible; C118_ndimage (all windows), C118_signal (exact value), C118_signal_iff and C118_valid_iff (exactly which pairs of windows are right), C118_signal_refuted (shift of one pixel); C118_norm, C118_light (1 for scipy.signal, the factor of the light for scipy.ndimage)")
c("C119","partial","C119_file C119_smooth C119_without C119_read_x C119_read_y_iff C119_smooth_refuted","REFUTED as stated; C119_file (saving succeeds, contents of each pass), C119_read_x and C119_read_y_iff (what a reader recovers), C119_smooth (exactly when the smoothed field and the splines are there), C119_without (passes without splines), C119_smooth_refuted (one nan loses the smoothed field)")
c("C120","partial","C120_history C120_reload C120_class C120_new_refuted C120_first","REFUTED as stated; C120_history (what is known after any history), C120_reload, C120_class (which class or error from what is known), C120_first (everything is found by a session which never asked), C120_new_refuted (installed later: not found)")
c("C121","partial","C121_history C121_params_refuted C121_same C121_display C121_display_last","REFUTED as stated; C121_history (exactly which serie after any history), C121_params_refuted (later parameters are ignored), C121_same (right without changes), C121_display and C121_display_last (display of the preprocessing)")
c("C122","partial","C122_wave C122_sinusoid C122_odd_refuted C122_no_pattern C122_rectify C122_gain C122_filter_range C122_filter_zero_iff","REFUTED as stated; C122_wave: the dominating number of periods m is found exactly for an even number of columns (times the oversampling), and m + 1/2 for an odd one (fftshift against arange(-n/2, n/2)); C122_sinusoid: the hypothesis holds for every sinusoidal pattern; C122_no_pattern: a frame without pattern gives half the width; C122_rectify: demodulation, exact powers; C122_filter_zero_iff: the filter has zeros only when both sizes are even. Real arithmetic.")
c("C123","partial","C123_points C123_result C123_ok_iff C123_added_refuted","REFUTED as stated: when a field is appended after set_timestep the spectra of n + 1 values come with n pulsations and a wrong normalisation (C123_added_refuted). Proved: with the times of the present fields, coefficients, pulsations and integral of the densities for every point and both components (C123_points), exact condition of success (C123_ok_iff).")
c("C124","partial","C124_index C124_follows C124_large_refuted C124_no_times_refuted","REFUTED as stated: with fifty lines or more every move raises ValueError and the arrows remain those of the first field (C124_large_refuted); without times every move raises and nothing is drawn (C124_no_times_refuted). Proved: the current index after any sequence of moves, also after exceptions (C124_index); with less than fifty lines and times, colours, arrows and time of the current field (C124_follows). The display of the array itself only works with skip=None or an integer (C108).")
c("C125","proved","C125_ok_iff C125_images C125_displaced","In real arithmetic, for a second shape with non-negative sizes and a non-zero particle size.")
c("C126","partial","C126_pixels C126_arguments_refuted C126_again_refuted C126_same_array_refuted C126_interface_refuted C126_displacement C126_facing C126_opposite","REFUTED as stated: phys2pix multiplies the arrays of the caller by 100 in place (C126_arguments_refuted), a second call returns the pixels of points a hundred times further (C126_again_refuted), one array used twice is multiplied twice (C126_same_array_refuted), an array of heights with an interface raises ValueError (C126_interface_refuted). Proved: pixels of each point on the first call (C126_pixels), displacement between the two ends (C126_displacement, slices not tilted and no distortion), camera facing the slice (C126_facing), opposite and null displacements for every calibration (C126_opposite).")
c("C127","partial","C127_one_place C127_end C127_running_functions_finish C127_ends C127_no_new_item_refuted C127_computed_saved_refuted C127_children C127_children_refuted","REFUTED as stated; proved for every chain of works, every schedule and every instants of the signals: the run ends (fair executions), the running functions finish, each item is delivered with the result without signal or left before a work. Refuted: items are still begun (possibly all of them), computed results can be lost, and the parent of several processes crashes in the handler as soon as one process has been waited for. Model: a signal is a step which sets the flag of the asynchronous executor; the sequential executor never reads the flag; pid reuse not modelled.")
c("C128","proved","C128_program C128_refused C128_parameters C128_without_patch C128_accepted_iff C128_mode C128_windows C128_new_dir C128_same_dir C128_unknown_mode","The reading of the XML file (fluiddyn), import_class and the place of a path on the disk are parameters of the model. --mode is silently ignored for a parameter file which has no params.saving.how (stated in C128_mode).")
c("C129","partial","C129_blocked C129_ends C129_ends_iff C129_works C129_refuted","REFUTED as stated: stdout and stderr of the processes are pipes which the parent does not read before the end of the process, so that a process which writes more than the capacity of a pipe on stderr (or on stdout without list of results) blocks and compute never returns (C129_blocked, C129_refuted). Exact condition: C129_ends_iff; every execution ends under it (C129_ends); the part about the stdout of the works holds (C129_works).")
c("C130","partial","C130_calls C130_ends C130_not_saved C130_sequential C130_sequential_iff C130_swallowed_refuted C130_one_shot_refuted C130_asynchronous C130_locked C130_again","REFUTED as stated: after an asynchronous computation which has not reached its asynchronous part (interrupted during a one shot work, or refused because of the lock), its handler stays installed with nursery=None, raises AttributeError, which exec_sequential catches as an error of the item: all the items are computed in spite of Ctrl+C (exact condition: C130_sequential_iff). During the one shot works AttributeError is raised instead of KeyboardInterrupt. After an interruption the directory stays locked for the session. Proved for all topologies and instants: no new call in the asynchronous part, the running functions finish once, bounded end. trio by a trusted description; signals received inside the code of trio itself are not modelled.")
c("C131","partial","C131_rows C131_order_iff C131_larger_iff C131_larger_refuted","REFUTED as stated: if a coordinate of the origin is a half multiple of the spacing, np.round (halves to even) mixes two rows or two columns of a perfect target (exact condition: C131_order_iff), and in a larger target the next circles are on the edge of the box, which is inside: AssertionError (exact condition: C131_larger_iff). Proved: all the orders of detection, all errors e with ds/2 - e larger than the distance of the origin to a multiple of ds. Exact arithmetic; the detector of OpenCV gives an arbitrary list.")
c("C132","partial","C132_first C132_new_object C132_object C132_saved_refuted C132_no_directory_refuted","REFUTED as stated: an existing file is never replaced (a warning is printed) although the object has the new calibration, and a path without directory, as the default one, gives FileNotFoundError. Proved: what the file and the objects contain after all sequences of calibrations. The content of the HDF5 file is abstract.")
c("C133","partial","C133_nearest C133_defined C133_bright C133_dark_image_refuted C133_dark_refuted C133_seen_iff C133_threshold C133_volume_refuted C133_mean C133_blocks C133_default_iff","REFUTED as stated; a voxel in a bright pixel gets its intensity and the size of the blocks does not change the result. False: the dark pixels are dropped before the interpolation, so that every voxel gets the intensity of the nearest bright pixel and no voxel is dark; an image without bright pixel gives nan; with less voxels than CPUs the default size of the blocks is 0 (ZeroDivisionError)")
c("C134","partial","C134_history C134_no_copy C134_no_save C134_no_save_refuted C134_size C134_tmp_name_refuted C134_image_refuted C134_no_path_iff C134_memory_iff C134_load C134_clear C134_clear_refuted C134_stopped C134_lost_refuted","REFUTED as stated; the files of every history of calls with init_paths are proved. False: the image given to reconstruct does not choose the file; after the second camera the intensities in memory cannot be used (file closed and removed); clear keeps the intensities after a call which saved; when the program is stopped during the writing, the next call overwrites the copy with the damaged file; the file of an image named like the copy is removed")
c("C135","partial","C135_cameras C135_own_iff C135_same_name_refuted C135_array_iff C135_cams_refuted","REFUTED as stated; exact conditions on the names. False: the files cam.0.h5 and cam.1.h5 (or two files of the same name in two directories) share the last calibration; a camera named array replaces the volume, a camera named cams makes the next one raise AttributeError")
c("C136","partial","C136_sample C136_number_iff C136_sample_error_iff C136_negative C136_levels C136_coeffs C136_lines C136_small_refuted","REFUTED as stated for an image with fewer pixels in one direction than the number asked for (100 by default): the step is zero and ValueError is raised. Proved otherwise: the pixels are the multiples of the step, between number and 2 number - 1 (exactly number iff it divides the size), the values are those of the interpolations at these pixels, and one line is drawn for each pixel of the grid.")
c("C137","partial","C137_multi_again C137_again_refuted C137_light C137_light_distinct C137_light_same_refuted C137_computed C137_distinct C137_distinct_refuted C137_light_series C137_light_no_series_refuted C137_kind_iff","REFUTED as stated: a result of one pass or a light result read in a file cannot be saved (AttributeError, the couple read has no series), nor can the light result of images given without series, the light results of two passes of a file or of ROOT.h5 and ROOT.nc go in the same file, and so do couples whose names contain a dash. Proved: a result of several passes can be saved again under its name, a light result goes in ROOT_light.h5 and never in the file which has been read, different names without dash give different files, exact condition for a kind without name.")
known = set()
for f in glob.glob("/verif/rocq/theories/*.v"):
    for m in re.finditer(r"^(?:Theorem|Lemma|Corollary)\s+([\w']+)", open(f).read(), re.M):
        known.add(m.group(1))
for d in CL:
    for t in d["theorems"]:
        assert t in known, (d["property"], t)
json.dump({"claims": CL}, open("/verif/MANIFEST.json", "w"), indent=1)
print(len(CL), "claims")
