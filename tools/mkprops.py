import json
P=[]
def p(id,title,statement,quantifier,why,anchors):
    P.append(dict(id=id,title=title,statement=statement,quantifier=quantifier,why_tests_cant=why,anchors=anchors))
T="src/fluidimage/topologies/"; E="src/fluidimage/executors/"; W="src/fluidimage/works/"; C="src/fluidimage/calcul/"; D="src/fluidimage/data_objects/"; PP="src/fluidimage/postproc/"
p("C01","Splitting a range loses and duplicates nothing",
 "Splitting range(start, stop, step) into n parts gives n ranges whose elements, concatenated in order, are exactly the elements of the original range, and the part sizes differ by at most one, the larger ones first.",
 "all integers start, stop, all non-zero steps (negative included), all n >= 1",
 "The arithmetic uses floor division and a remainder; a test can only sample (start, stop, step, n).",
 [T+"splitters.py:split_range"])
p("C02","Splitting a list loses and duplicates nothing",
 "Splitting a list of indices into n parts gives contiguous slices whose concatenation is the list; sizes differ by at most one; there are min(n, len) parts, all non-empty, or n empty parts when the list is empty.",
 "all lists of any element type, all n >= 1","Slice bounds involve min(), // and %; tests sample a few lengths.",
 [T+"splitters.py:split_list"])
p("C03","Worker process i handles part i",
 "Among the parts produced by the splitters the empty ones come last, so skipping empty parts never shifts the numbering of the remaining ones: the k-th started process writes the progress file read as the k-th one.",
 "all ranges, lists and process counts","Needs all sizes relative to the number of processes.",
 [T+"splitters.py:split_range",T+"splitters.py:split_list",E+"multi_exec_async.py:_start_multiprocess_series",E+"base.py:MultiExecutorBase.compute"])
p("C04","Index files round-trip",
 "The text file of indices written for a worker process is parsed back by that process to exactly the same list of indices, for integer indices and for tuples of integers; and two worker processes never share a file name.",
 "all lists of integers, all lists of integer tuples of any arity (including arity 1), all process numbers","Printing and parsing are inverse only if every sign, digit count, arity is right.",
 [T+"splitters.py:save_indices_files",T+"base.py:_tuple_ints_from_str",T+"base.py:init_series",T+"base.py:fill_queue_paths"])
p("C05","The parts given to the worker processes cover the series exactly",
 "For a topology working on a series, the sub-ranges (or index lists in 'complete' mode) passed to the worker processes are pairwise disjoint and their union is the set of series indices to be computed.",
 "all index ranges/steps, all sets of already saved results, all numbers of processes","Any state of the result directory and any number of processes.",
 [T+"splitters.py:SplitterFromSeries",T+"splitters.py:SplitterFromImages"])
p("C06","Waiting queues are first-in first-out maps",
 "A queue returns items in the order in which their keys were first inserted; setting an existing key keeps its place and replaces its value; deleting removes exactly one key; popping an empty queue raises KeyError; a copy is independent and equal.",
 "all sequences of set / pop-first / delete operations","Histories are unbounded.",
 [T+"base.py:Queue"])
p("C07","The sequential executor computes the pipeline function for every item and stops",
 "For a chain of works, compute() with exec_sequential terminates, every input item goes exactly once through every work in order, and the value finally delivered for a key is the composition of the works applied to its input, where the first failing work replaces the value by its exception and later works are skipped for this item only.",
 "all pipelines lengths, all items, all work functions, all failing subsets","Every number of items, every length of the chain, every subset of failing items.",
 [E+"exec_sequential.py:_run_works",T+"base.py:Work.check_exception"])
p("C08","Asynchronous execution loses, duplicates and mixes nothing under any schedule",
 "Whatever the interleaving of tasks and completions, at every moment each input key is in exactly one place (a queue, an in-flight work, or delivered), and the value attached to it is the one obtained by applying to its input the works already passed; an exception of one item never changes another item.",
 "all interleavings of scheduler loops, worker starts and completions; all chains, items, failing subsets","Interleavings cannot be enumerated by tests.",
 [E+"exec_async.py:ExecutorAsync"])
p("C09","The asynchronous executor only stops when everything is done",
 "The executor decides to stop only when all items have been delivered by the last work; hence asynchronous and sequential executors deliver the same value for every key.",
 "all interleavings and all moments at which the stop condition may be evaluated","The stop condition is polled concurrently with the workers.",
 [E+"exec_async.py:update_has_to_stop",E+"exec_async.py:async_run_work_io",E+"exec_async.py:async_run_work_cpu"])
p("C10","A chain of works never deadlocks",
 "With at least one worker and a queue limit of at least one, in every reachable unfinished state of the asynchronous executor on a chain of works some work can make progress, and the amount of remaining work strictly decreases with every productive step, so that every fair execution stops.",
 "all reachable states, all limits >= 1","Liveness under back-pressure for all sizes and schedules.",
 [E+"exec_async.py:async_run_work_io",E+"exec_async.py:update_has_to_stop"])
p("C11","No more than nb_max_workers CPU works run at once",
 "At any time at most nb_max_workers CPU works (and as many io works) run simultaneously.",
 "all interleavings","The check and the increment are in different tasks.",
 [E+"exec_async.py:async_launch_work_cpu"])
p("C12","The length of every waiting queue is bounded",
 "In an asynchronous execution a queue filled by an io or cpu work never holds more than nb_items_queue_max items plus the number of workers that can be in flight.",
 "all interleavings","Memory bound for every schedule.",
 [E+"exec_async.py"])
p("C13","stop_if_error really stops",
 "With stop_if_error the sequential executor raises the exception of the first failing item, and nothing is executed after it; without it no exception of a work escapes compute().",
 "all pipelines, all failing subsets","All positions of the first failure.",
 [E+"exec_sequential.py:_run_works"])
p("C14","PIV: every couple is formed once, with the right images, whatever the reading order",
 "For every order in which images become available, each couple of names is turned exactly once into the couple of the two corresponding images (or into the exception of the image which could not be read), never before both images are available, and no image needed by a remaining couple is dropped.",
 "all lists of couples (images shared between couples), all arrival orders and call times","The call times are decided by the scheduler.",
 [T+"piv.py:make_couples"])
p("C15","Preprocessing: every subset is formed once, with the right images",
 "Same property for subsets of any size: each subset of names becomes exactly once the tuple of its images, in the order of the names, and no image still needed is dropped.",
 "all families of subsets, all arrival orders","Same.",
 [T+"preproc.py:make_subsets"])
p("C16","The computation always ends, however far apart the images of a couple are",
 "compute() on a PIV or preprocessing topology ends for every str_subset, with every executor.",
 "all lists of couples/subsets, all queue limits","A deadlock depends on sizes relative to internal limits.",
 [E+"exec_async.py",E+"exec_async_seq_for_multi.py",T+"piv.py",T+"preproc.py"])
p("C17","A work declared one shot is called once per execution",
 "During one compute() a work of kind 'one shot' is called exactly once.",
 "all topologies and executors","Depends on the topology attributes.",
 [E+"base.py:exec_one_shot_works",E+"base.py:_init_num_expected_results_first_queue",T+"base.py:Work"])
p("C18","final_seq_work runs exactly once",
 "If the topology defines final_seq_work it is run exactly once per execution, after all works, in the main process.",
 "all executors, all numbers of calls of finalisation","History property.",
 [E+"base.py:_run_final_seq_work"])
p("C19","The saved list of results never misses or repeats a result",
 "In a worker process the file of result names is, after each save, a faithful record of the results: every result name appears once, in order, and the companion file holds their number.",
 "all interleavings of appending threads and saves, all crash points","Race and crash points.",
 [E+"base.py:_save_results_names"])
p("C20","Lock file life cycle",
 "While a job is running its directory contains the lock file; a second job cannot start on the same job directory; after release the lock is absent and the end time is recorded; releasing twice is harmless; a job with nothing to do creates no lock.",
 "all sequences of start/release/atexit events","History property.",
 [E+"base.py:_save_lock_file",E+"base.py:_release_lock"])
p("C21","The multi-process executor waits for all processes and reports every failure",
 "MultiExecutor.compute returns only when every worker process has exited; the list of results is the concatenation of the results of all processes; if some process exits with a non-zero code a RuntimeError is raised after finalisation, otherwise none.",
 "all exit orders and exit codes","All interleavings of process exits with polling.",
 [E+"base.py:MultiExecutorBase.compute"])
p("C22","new_dir never writes in an existing directory",
 "With params.saving.how == 'new_dir' the result directory did not exist before, and it is the first free name among the base name and the base name followed by 0, 1, 2...; 'complete' and 'recompute' use the base name; answering the question selects the corresponding mode.",
 "all directory contents, all sequences of answers","Unbounded set of existing directories.",
 [T+"base.py:prepare_path_dir_result"])
p("C23","'complete' computes exactly what is missing",
 "With how == 'complete' the works are run exactly for the items whose result file does not exist; re-running after an interruption at any point computes exactly the remaining items and after a full run nothing is left.",
 "all sets of existing results, all interruption points","Crash points.",
 [T+"base.py:compute_indices_to_be_computed",T+"base.py:fill_queue_paths",T+"piv.py:compute_indices_to_be_computed",T+"preproc.py:compute_indices_to_be_computed"])
p("C24","Remote workers: the executor with servers does not stop too early and balances the load",
 "The servers executor stops only when all items are done; a job is always sent to an available worker with the smallest number of items and a worker never receives more than the allowed number of items.",
 "all interleavings of sends, replies and stop checks","Interleavings.",
 [E+"exec_async_servers.py",E+"servers.py"])
p("C25","Mean image",
 "TopologyMean returns the sum of all images divided by their number, independently of the order of the partial reductions and of the distribution over processes; the number of recorded results equals the number of images.",
 "all numbers of images, all reading orders, all splits over processes","All reduction trees.",
 [T+"mean.py"])
p("C26","BOS with an image-to-image function processes every image and ends",
 "TopologyBOS with params.preproc.im2im set computes every BOS field from the preprocessed image and compute() ends.",
 "all numbers of images","Wiring of the queues for all executions.",
 [T+"bos.py:TopologyBOS.__init__"])
p("C27","Surface tracking in 'complete' mode ends",
 "Re-running a surface tracking computation with how == 'complete' ends, whatever the set of results already saved.",
 "all sets of existing results","All result directories.",
 [T+"surface_tracking.py:fill_queue_paths",T+"surface_tracking.py:make_couples"])
p("C28","PIV grid: every interrogation window lies in the image",
 "The centres of the interrogation windows are inside the image such that the cropped windows of the first pass have exactly the requested shape, are regularly spaced, cover the image up to less than one step, and an image not larger than the window is rejected.",
 "all image sizes, window sizes, overlaps","All integer parameters.",
 [W+"piv/singlepass.py:_prepare_with_image",W+"piv/singlepass.py:_init_crop",W+"piv/singlepass.py:_crop_im0"])
p("C29","Displaced windows stay inside the padded image",
 "In later passes, the displaced windows of both images are extracted at the displaced positions, with exactly the requested shape, and positions of the windows are consistent: the difference between the two window centres equals the integer displacement used.",
 "all image sizes, positions and displacement estimates","Corner cases of 2D displacement near the borders.",
 [W+"piv/singlepass.py:WorkPIVFromDisplacement._calcul_positions_vectors_subimages",W+"piv/singlepass.py:_crop_im0"])
p("C30","The correlation peak is the maximum",
 "The peak indices are those of the largest non-NaN value of the searched window; an all-NaN correlation is reported as an error, never as a value; a peak on the border is flagged.",
 "all arrays (with NaN anywhere), all windows","All positions of NaN and ties.",
 [C+"correl.py:nan_indices_max",C+"correl.py:_compute_indices_max"])
p("C31","Indices and displacements are inverse conversions",
 "Converting a displacement to correlation indices and back is the identity and zero displacement corresponds to the centre index of the correlation.",
 "all displacements and correlation sizes","All sizes (odd/even).",
 [C+"correl.py:CorrelBase.compute_displacement_from_indices",C+"correl.py:CorrelBase.compute_indices_from_displacement"])
p("C32","The reordering of the FFT correlation puts zero displacement at the centre",
 "The reordering applied to the output of the FFT correlation is exactly reversal along both axes followed by the standard fft shift; the lag (dy, dx) is found at the index corresponding to this displacement.",
 "all array sizes (odd and even)","All sizes.",
 [C+"correl.py:_like_fftshift"])
p("C33","A pure circular translation is recovered exactly",
 "If the second image is the first one translated circularly by an integer displacement, the correlation has its maximum at the indices of this displacement, and the displacement computed from these indices is the imposed one.",
 "all images, all sizes, all integer displacements","All images and sizes.",
 [C+"correl.py:CorrelFFTNumpy",C+"correl.py:_like_fftshift"])
p("C34","Neighbour average ignores NaN and the centre",
 "The mean over neighbours is the average of the non-NaN values among the (up to) 8 neighbours, NaN if there is none or if the point itself is NaN.",
 "all arrays with at least two rows and two columns","All NaN patterns and border cases.",
 [C+"mean_neighbors.py"])
p("C35","False-vector bookkeeping is consistent",
 "After the fix step the vectors set to NaN are exactly those recorded as errors with their original value, the others are unchanged, and applying the threshold criteria flags exactly the vectors violating them.",
 "all vector fields, thresholds","All fields and thresholds.",
 [W+"piv/fix.py"])
p("C36","Subpixel refinement stays close to the peak",
 "The subpixel estimator returns a position at less than a bounded distance of the integer peak or raises PIVError; it never returns a far position.",
 "all correlation maps, peaks and methods","All maps.",
 [C+"subpix.py"])
p("C37","Multipass: window sizes and number of passes",
 "The k-th pass uses the initial window divided by the product of the first k zoom coefficients; a coefficient list of wrong length is rejected; a scalar means a constant coefficient.",
 "all numbers of passes and coefficients","All lengths.",
 [W+"piv/multipass.py"])
p("C38","Distinct inputs are saved in distinct files",
 "Two different couples (images) of the same series are saved under different file names.",
 "all pairs of couples","All index values.",
 [D+"piv.py:get_name_piv",D+"piv.py:get_name_bos"])
p("C39","PIV results survive saving and loading",
 "Loading a saved PIV result gives back the saved quantities: vectors, positions, errors keyed by vector index, and thin-plate-spline data per subdomain.",
 "all results (any number of vectors, errors, subdomains)","All sizes; order of HDF5 groups.",
 [D+"piv.py:HeavyPIVResults._save_in_hdf5_object",D+"piv.py:HeavyPIVResults._load_from_hdf5_object"])
p("C40","The light result contains the final pass",
 "make_light_result keeps positions and displacements of the chosen pass: each vector keeps its own x, y, dx, dy.",
 "all results, all passes","All passes.",
 [D+"piv.py:MultipassPIVResults.make_light_result"])
p("C41","Preprocessed images: what is saved is determined by the input",
 "For every subset the saved image(s) and names are determined by the parameters and the input images, not by the order in which subsets are processed; and 'complete' recognises the subsets already processed.",
 "all schedules, all families of subsets, all interruption points","Schedules.",
 [D+"preproc.py",W+"preproc/__init__.py:_make_dict_to_save",T+"preproc.py:compute_indices_to_be_computed"])
p("C42","Log files can be read back",
 "Analysing a log recovers, for every work launched and ended, its name, key and duration.",
 "all logs produced by the executors","All keys and interleavings of log lines.",
 [T+"log.py",E+"base.py:log_in_file"])
p("C43","The command-line launcher exposes every argument of the topology with its default",
 "The launcher builds its arguments from the signature of the topology: each argument gets its own default value.",
 "all signatures","All signatures.",
 [T+"launcher.py"])
p("C44","Formatted durations denote the right duration",
 "The text produced for a duration in seconds denotes this duration, with minutes and seconds in [0, 60) and hours in [0, 24).",
 "all durations","All values around the boundaries.",
 ["src/fluidimage/util/util.py:format_time_in_seconds"])
p("C45","Energy from Fourier coefficients equals energy in physical space",
 "The energy computed from the half-complex Fourier coefficients accounts for every mode with its multiplicity, for even and odd sizes.",
 "all sizes","Parity.",
 [C+"fft.py"])
p("C46","reset_logger removes all handlers",
 "After reset_logger the fluidimage logger has no handler left.",
 "all numbers of handlers","All numbers.",
 ["src/fluidimage/util/log.py:reset_logger"])
p("C47","Gridding of the vectors keeps every vector at its place",
 "reshape_on_grid_final returns 2D arrays X, Y, U, V such that the vector stored at (X[i,j], Y[i,j]) is the one given at this position, for both orderings and increasing or decreasing coordinates.",
 "all grids with at least 2 columns and 2 rows","All sizes and orderings.",
 [PP+"util.py"])
p("C48","extract_square returns a centred square",
 "extract_square returns a field with as many rows as columns, inside the original field.",
 "all shapes and cuts","All shapes.",
 [PP+"vector_field.py:extract_square"])
p("C49","Calibration: the two reference points are at the given distance",
 "With Calibration2DSimple the physical distance between the two calibration points is the distance given by the user, the reference point is mapped to the given origin and displacements are differences of physical positions.",
 "all points, distances, aspect ratios","All real inputs.",
 ["src/fluidimage/calibration/calib2d_simple.py"])
p("C50","Tsai calibration: pixel to physical and back",
 "Converting a pixel to physical coordinates on a plane and back gives the pixel again.",
 "all camera parameters, pixels and planes","All parameters.",
 ["src/fluidimage/calibration/calib_tsai.py"])
p("C51","Direct calibration: the computed point is on the plane and on the optical path",
 "intersect_with_plane returns a point of the plane that lies on the optical path of the pixel, whenever they are not parallel.",
 "all planes and lines","All reals.",
 ["src/fluidimage/calibration/calib_direct.py:intersect_with_plane"])
p("C52","Thin plate splines with subdomains: every point is covered",
 "Every data point belongs to at least one subdomain with positive weight, so that the smoothed field is a weighted average (weights summing to one) of the fields of the subdomains containing the point.",
 "all point sets, subdomain sizes, buffers","All geometries.",
 [C+"interpolate/thin_plate_spline_subdom.py"])
p("C53","Mask coordinates are converted back and forth exactly",
 "Converting positions in the cropped image to positions in the original image and back is the identity and the pixel found at the converted position in the original image is the pixel of the cropped image.",
 "all crops, positions","All crops.",
 [W+"with_mask.py",D+"piv.py:get_slices_from_strcrop"])
p("C54","UVmat instructions are translated faithfully",
 "The series parameters produced from UVmat instructions select exactly the images described by the instructions (first, last, increment, pair mode).",
 "all instructions","All index ranges and modes.",
 ["src/fluidimage/uvmat.py"])
p("C55","Preprocessing tools are applied in the configured order and only if enabled",
 "The preprocessing applies exactly the enabled tools, in the order of the sequence, and applying a tool to a stack of images is applying it to each image.",
 "all sequences, enabled subsets and stacks","All sequences.",
 [W+"preproc/toolbox.py:apply",W+"preproc/io.py"])
p("C56","compute() selects the executor asked for",
 "compute() runs the executor asked for (by name, by sequential=True or as an object) with the given options, or raises when the request is inconsistent or unknown.",
 "all combinations of arguments","All combinations.",
 [T+"base.py:TopologyBase.compute"])
p("C57","Tomography: grid and projected pixels are aligned",
 "Row i of the projected pixels corresponds to row i of the voxel grid and the limits recorded are the limits given.",
 "all grids","All sizes.",
 [D+"tomo.py","src/fluidimage/reconstruct/tomo/mlos.py:phys2pix"])
p("C58","The second chance looks for another peak",
 "When the largest correlation value is flagged (on the border or next to a NaN), the search is done a second time without the neighbourhood of this peak (values at a distance at most particle_radius along each axis), and the displacement returned, if any, is the one of the largest remaining value.",
 "all correlations, radii, positions of the peak","All positions, close to all borders.",
 [C+"correl.py:CorrelBase.compute_displacements_from_correl"])
p("C59","Secondary peaks are other peaks",
 "The secondary peaks returned with nb_peaks >= 2 are maxima of the correlation without the neighbourhoods of the peaks returned before: no peak is returned twice and the list is never longer than asked.",
 "all correlations, radii, numbers of peaks","All positions.",
 [C+"correl.py:CorrelBase.compute_displacements_from_correl"])
p("C60","The direct correlation is the mean of the products over the overlap",
 "The value of the direct correlation for a displacement is the sum of the products of the pixels of the two windows, divided by the number of terms of the overlap, and no pixel out of the windows is read.",
 "all sizes of the two windows, all images","All parities of the sizes.",
 [C+"correl.py:correl_numpy",C+"correl.py:CorrelPythran"])
p("C61","The normalised FFT correlation is bounded by one",
 "The correlation divided by its norm is between -1 and 1 for all images, and it is 1 at the displacement between two images which are translated of each other.",
 "all images, all sizes","All images, parity of the sizes.",
 [C+"correl.py:CorrelFFTNumpy",C+"correl.py:CorrelFFTWithOperBase",C+"fft.py"])
p("C62","A vector field has increasing coordinates and the given vector at each position",
 "The object built from coordinates (or from the vectors of a PIV result) has increasing x and y and, at each position, the vector that was given there, whatever the orientation of the input.",
 "all monotone coordinates, all values","All orientations and sizes.",
 [PP+"vector_field.py:VectorFieldOnGrid.__init__",PP+"vector_field.py:VectorFieldOnGrid.from_file"])
p("C63","Extraction keeps exactly the asked points",
 "extract returns the rows and columns asked for with their vectors; with physical bounds, exactly the points inside the bounds (bounds included); truncate removes the same number of points on each side.",
 "all fields with increasing coordinates, all bounds","All sizes and bounds.",
 [PP+"vector_field.py:extract",PP+"vector_field.py:truncate"])
p("C64","The time average of fields is the mean at each position",
 "The time average of an array of fields gives, at each position, the mean of the vectors of the fields at this position.",
 "all nonempty lists of fields","All sizes and numbers of fields.",
 [PP+"vector_field.py:compute_time_average",PP+"vector_field.py:__add__"])
p("C65","A function of the spatio-temporal data is applied to each component",
 "apply_function_to_spatiotemp_data returns fields whose x component is the function of the x components and whose y component is the function of the y components.",
 "all functions, whether they return a new array or a view on their argument","Memory aliasing.",
 [PP+"vector_field.py:apply_function_to_spatiotemp_data"])
p("C66","The curl and the divergence are second order",
 "On a regular grid compute_rotz and compute_divh are exact for fields which are polynomials of degree two of the position, at all the points including the borders.",
 "all regular grids with at least 3 points in each direction, all polynomials","All sizes and coefficients.",
 [PP+"vector_field.py:compute_rotz",PP+"vector_field.py:compute_divh"])
p("C67","The spectra describe the signal and have the documented normalisation",
 "compute_1dspectrum returns pulsations and complex coefficients whose waves sum up to the signal, and a power spectral density with sum(signal**2) * dx / Lx = sum(psd) * domega.",
 "all signals, all sizes (even and odd)","All signals.",
 [PP+"util.py:compute_1dspectrum",PP+"util.py:compute_2dspectrum"])
p("C68","Stereo: the common grid is in both fields of view",
 "find_common_grid returns points of the laser plane whose coordinates are between the smallest and largest coordinates seen by each of the two cameras.",
 "all sets of points seen by the two cameras whose fields overlap, all planes which are not vertical","All sets of points.",
 ["src/fluidimage/calibration/calib_direct.py:DirectStereoReconstruction.find_common_grid"])
p("C69","Stereo: the reconstruction of a displacement seen by two cameras is this displacement",
 "For any two distinct cameras which look down at different angles, the reconstruction object can be built, the base of each camera is orthonormal with its last vector along the optical paths, and the three components reconstructed from the displacements seen by the two cameras are the ones of the real displacement, with zero estimated errors.",
 "all pairs of viewing directions, all displacements","All directions and displacements.",
 ["src/fluidimage/calibration/calib_direct.py:DirectStereoReconstruction","src/fluidimage/calibration/util.py:get_base_from_normal_vector"])
p("C70","Tomography: the displayed slices are slices of constant height",
 "plot_slices shows, as image number k, the intensities of the voxels whose height is the k-th one.",
 "all shapes of voxel arrays","All shapes.",
 [D+"tomo.py:ArrayTomoBase.plot_slices",D+"tomo.py:ArrayTomoCV"])
p("C71","Tomography: the intensity of a voxel is the product over the cameras",
 "After one call of reconstruct for each camera, the intensity of each voxel is the product over the cameras of the n-th root of the image intensity at the pixel of the voxel, whatever the order of the cameras and whether the results are kept in memory or saved in the file.",
 "all numbers of cameras, orders, intensities, initial contents of the results directory","All histories of calls and files.",
 ["src/fluidimage/reconstruct/tomo/mlos.py:TomoMLOSBase.reconstruct"])
p("C72","Calibration target: image points and object points are in the same order",
 "For a target of nx by ny circles, construct_object_points lists the circles in the order in which detect_grid returns their images, so that they can be given together to the calibration.",
 "all odd numbers nx and ny, all orders of detection","All sizes and orders.",
 ["src/fluidimage/calibration/calib_cv.py:construct_object_points","src/fluidimage/calibration/calib_cv.py:SimpleCircleGrid.detect_grid"])
p("C73","Thin plate splines reproduce the data",
 "Without smoothing the thin plate spline goes through the data; with any smoothing the mean and the first moments of the smoothed data are those of the data, data which depend linearly on the position are reproduced exactly at all positions, and the field evaluated at the centers is the smoothed field.",
 "all sets of centers, values, smoothing coefficients, evaluation positions","All numbers and positions of centers.",
 [C+"interpolate/thin_plate_spline.py:compute_tps_weights",C+"interpolate/thin_plate_spline.py:ThinPlateSpline.compute_field"])
p("C74","Thin plate splines: the gradient is the gradient of the field",
 "compute_gradient returns the partial derivatives of the interpolated field.",
 "all centers, weights and positions which are not centers","All weights and positions (limits).",
 [C+"interpolate/thin_plate_spline.py:ThinPlateSpline.compute_gradient"])
p("C75","Thin plate splines: the replacement of the erratic vectors ends",
 "The iterative replacement of erratic vectors ends for every field and leaves a field without erratic vector as the smoothing alone would; the threshold is optional.",
 "all fields, thresholds and subdomains","All fields, unbounded loop.",
 [C+"interpolate/thin_plate_spline_subdom.py:ThinPlateSplineSubdom.compute_tps_weights_iter"])
p("C76","The window of the temporal filters covers more than one image",
 "The temporal filters accept the documented windows (None, an int, a tuple or list of two or three numbers) and use a window of more than one image, or raise ValueError.",
 "all shapes of arrays, all values of window_shape","All windows.",
 [W+"preproc/_toolbox_py.py:_calcul_windowshape",W+"preproc/_toolbox_py.py:temporal_median"])
p("C77","The subtraction of the background gives intensities between zero and the original ones",
 "The sliding and temporal filters return max(0, img - weight * background) for every image type and weight.",
 "all images, dtypes, weights and backgrounds","All pixels values and dtypes.",
 [W+"preproc/_toolbox_py.py:sliding_median",W+"preproc/_toolbox_py.py:temporal_median"])
p("C78","The global threshold trims the intensities",
 "global_threshold returns the image with the intensities clamped in the interval (minima, maxima), the other ones being unchanged.",
 "all images, dtypes and thresholds","All pixel values and dtypes.",
 [W+"preproc/_toolbox_py.py:global_threshold"])

p("C79","The subsets of a preprocessing save every image once",
"When the preprocessing work is told the rank of the subset among the subsets (first, middle, last), the images saved by all the subsets together are exactly the images of the serie: every image is saved once, in order, and the saved image is the one processed for this file name.",
"every number of images per subset, every number of values of the two indices of the file names, every number of subsets",
"The number of subsets and the sizes of the subsets are unbounded; the missing images only appear for even numbers of values of the first index with a second index.",
[D+"preproc.py:get_ind_middle", D+"preproc.py:get_Ni_Nj", D+"preproc.py:get_name_preproc", W+"preproc/__init__.py:WorkPreproc._make_dict_to_save"])
p("C80","On a peak of Gaussian shape the subpixel methods give its centre",
"If the correlation around its maximum has the shape of a Gaussian, the subpixel methods based on a Gaussian return the centre of this Gaussian; exchanging the two directions (or mirroring a direction) of the correlation exchanges (mirrors) the result.",
"every correlation map, every position of the maximum, every width and centre of the Gaussian",
"The values are real numbers and the shapes are unbounded; a test only tries some centres.",
[C+"subpix.py:compute_subpix_2d_gaussian2", C+"subpix.py:SubPix.compute_subpix"])
p("C81","Surface tracking corrects each image once against its corrected predecessor and ends",
"When the surface tracking topology is computed on a serie of images (none already saved), every image is read and processed exactly once; every image is corrected exactly once, with the corrected angle of the image just before it in the serie (the first one with itself); the height of every corrected image is computed and saved exactly once; nothing is left in the queues and the computation ends, whatever the order in which the images are read.",
"every number of images, every works (which may fail), every schedule of the tasks, every number of workers and limit of the queues, sequential and asynchronous executors",
"The chain of corrections depends on the order in which concurrent works end; tests see a few schedules on a few images.",
[T+"surface_tracking.py:TopologySurfaceTracking.make_couples", T+"surface_tracking.py:TopologySurfaceTracking.fill_queue_paths", T+"surface_tracking.py:TopologySurfaceTracking.__init__", E+"exec_async.py"])
p("C82","Surface tracking: the phase of each image is corrected by a multiple of 2 pi",
"The correction of a couple of phases ends; it moves the whole phase of the image by one multiple of 2 pi, chosen such that at the reference pixel (which is always in the array) the phase is within pi of the corrected phase of the previous image, and leaves it unchanged when it was already; hence along a series two successive corrected phases differ by at most pi at this pixel.",
"every arrays of phases (real numbers at the reference pixel, anything elsewhere), every sizes and reduction factors, series of any length",
"It is a while loop on real values: tests see a few jumps.",
[W+"surface_tracking.py:WorkSurfaceTracking.correctcouple"])
p("C83","Surface tracking: the heights computed from the phases",
"The height given for the phase of a point of height h is h; with correct_height the reference frame itself has the height offset; with correct_pos the positions of the heights are corrected; the heights can be computed for any phases, and when no reference images are given the default wave vector is used.",
"every phases (with NaN), every distances, wave lengths, shapes and offsets",
"Tests use one film and do not look at the heights.",
[W+"surface_tracking.py:WorkSurfaceTracking.convphase", W+"surface_tracking.py:WorkSurfaceTracking.calculheight_func", W+"surface_tracking.py:WorkSurfaceTracking.process_ref", W+"surface_tracking.py:WorkSurfaceTracking.compute_kx"])
p("C84","Surface tracking: normalisation of the frames",
"In the normalised frame each pixel is its intensity divided by the mean of its line, minus one: the mean of each line is zero, different intensities stay different, and the illumination of a line does not matter.",
"every frames (any size, any dtype) whose lines have non-zero means",
"The effect depends on the dtype of the images and is only visible in the values.",
[W+"surface_tracking.py:WorkSurfaceTracking.frame_normalize", W+"surface_tracking.py:WorkSurfaceTracking.process_frame"])
p("C85","Surface tracking: the result for an image depends on this image only",
"With crop_edge the borders of the plate are found in the image, its columns are put in the reference frame, and the frame obtained does not depend on the images processed before.",
"every reference frame, image, threshold, window, and every sequence of images processed with the same object",
"Tests process images once and in one order.",
[W+"surface_tracking.py:WorkSurfaceTracking.get_borders", W+"surface_tracking.py:WorkSurfaceTracking.merge_cropped_frame", W+"surface_tracking.py:WorkSurfaceTracking.process_frame_func"])
p("C86","Surface tracking: heights set to zero on the borders",
"In the saved image the first and last borders columns are zero and the other columns are the heights computed for these columns (resized when the plate was cropped), for every borders.",
"every heights, windows, borders, positions of the plate and every resize function",
"Tests use the default border and do not compare columns.",
[W+"surface_tracking.py:WorkSurfaceTracking.set_borders_zero_func"])
p("C87","The monitor shows the state of the job",
"fluidimage-monitor displays the number of results of the job, whether it is running, and the times; the numbers never exceed what has been computed, never go down, and once the job is ended they are the final ones.",
"every job, interleaving of the writes of the processes and of the reads of the monitor, moment when the monitor is started and number of ticks of its timer",
"Depends on the interleaving of two programs which share files.",
["src/fluidimage/gui/monitor.py:MonitorApp.detect_results","src/fluidimage/gui/monitor.py:MonitorApp.update_info","src/fluidimage/gui/monitor.py:MonitorApp.compute_times_str",E+"base.py:ExecutorBase"])
p("C88","The monitor chooses the last started job",
"Without a job given by the user, fluidimage-monitor shows the job of the directory which was started last, whatever the other entries of the directory.",
"every directory content: jobs with any starting times, process numbers and indices, and other entries",
"Any set of names, times and process numbers.",
["src/fluidimage/gui/monitor.py:MonitorApp.__init__",E+"base.py:ExecutorBase"])
p("C89","Executor exec_async_multi: one process computes one item",
"A function run in a process gives its result (or its exception) to the parent, the function is called exactly once per item, no process of the item is left running, and the parent is not blocked whatever happens in the process.",
"every interleaving of the parent and of the processes it starts (including slow starts), every outcome of the function: value, exception, value which cannot be sent, death of the process",
"Slow starts, deaths and interleavings cannot be enumerated by tests.",
[E+"exec_async_multiproc.py:ExecutorAsyncMultiproc.async_run_work_cpu",E+"exec_async_multiproc.py:exec_work_and_comm"])
p("C90","Splitting of the first queue between processes",
"For a topology without series, multi_exec_async gives each item of the first queue to exactly one process, in the order and in balanced parts; each process runs the same topology (without the first work) on its items, its works being called in the same conditions as in one process.",
"every topology (queues, works with one or several input and output queues), every content of the first queue, every number of processes",
"Any graph of works and queues; the objects are shared between the copies made for the processes.",
[E+"multi_exec_async.py:MultiExecutorAsync._start_multiprocess_first_queue",E+"base.py:ExecutorBase._init_num_expected_results_first_queue",E+"exec_async.py:ExecutorAsync.define_functions"])
p("C91","All processes of a computation save in the same directory",
"With the executors based on subprocesses, all processes save their results in the directory of results of the topology, without asking questions and without creating other directories, for every saving mode.",
"every file system, saving mode, answers of the user, saving path and moment when a process starts",
"Depends on the state of the file system and on the answers of the user at the start of each process.",
[E+"multi_exec_subproc.py:MultiExecutorSubproc","src/fluidimage/run_from_xml.py:main",T+"base.py:prepare_path_dir_result",T+"base.py:TopologyBase._init_path_dir_result"])
p("C92","Progress shown by the multi-process executors",
"The number of results displayed by the parent never goes down, never exceeds the number of results of the processes, the first result is announced once, and the last number is the number of results.",
"every number of processes, interleaving of their writes with the turns of the waiting loop (files missing or being written), and every exit of the processes",
"Depends on the timing of several processes.",
[E+"base.py:MultiExecutorBase.compute"])
p("C93","A PIV work gives the same result whatever it computed before",
  "WorkPIV.calcul(couple) gives the same result for a fresh object and for an object which already processed any other couples (with or without errors).",
  "every history of couples, every couple, every parameters (windows, overlap, number of passes, interpolation)",
  "the grids are kept in the object at the first call: tests process one couple, or couples of one size",
  [W+"piv/singlepass.py:BaseWorkPIV.calcul", W+"piv/singlepass.py:BaseWorkPIV._prepare_with_image", W+"piv/singlepass.py:WorkPIVFromDisplacement.calcul", W+"piv/multipass.py:WorkPIV.calcul"])
p("C94","Passes of a PIV computation: interpolation of the valid vectors on the next grid",
  "A PIV computation with n passes gives n results: the first pass uses the windows centred on its grid; each next pass uses at each node of its grid windows displaced by the rounded interpolation, at this node, of the valid vectors (and only these ones) of the previous pass, in the coordinates of the cropped image; the positions recorded for the interpolated values are those of the nodes in the original image; the final field is the interpolation of the valid vectors of the last pass at the nodes of its grid; in the smooth field a valid vector keeps its own position. A computation which ends without error has a final field.",
  "every images, grids, masks, number of passes, wrong vectors, interpolation method",
  "depends on the order of the points in five arrays, on the places of the NaN and on failures of the interpolation",
  [W+"piv/multipass.py:WorkPIV.calcul", W+"piv/singlepass.py:BaseWorkPIV.apply_interp", W+"piv/singlepass.py:WorkPIVFromDisplacement.calcul", C+"interpolate/griddata.py:griddata"])
p("C95","The optical flow gives the tracked features",
  "The work of optical flow returns one vector per feature found in the first image which is recovered by tracking back (difference smaller than the threshold) and whose displacement is between the minimum and the maximum given in the parameters: at the position of the feature in the whole image, with its own displacement, in the order of the features. A feature which has been lost gives no vector, a motionless feature is only removed by a minimum, and images without any feature give an empty field.",
  "every couple of images, every answer of the two OpenCV functions, every threshold and every combination of the two bounds",
  "depends on the alignment of the arrays through two filters and on the answers of the tracker for lost features",
  [W+"optical_flow.py:optical_flow", W+"optical_flow.py:WorkOpticalFlow.calcul"])
p("C96","Default number of cores and of workers",
  "On Linux the number of cores used by default is the number of CPUs the process is allowed to use, without the second threads of the cores unless the user allows hyperthreading in the configuration; elsewhere it is the number of CPUs. The number of workers is the argument, or the option, or depends on the number of cores. The module can be imported whatever the file of configuration says (true or false in any case) and whatever the system files contain.",
  "every mask of CPUs, every machine (processors, cores, threads), every content of the files and of the option",
  "the tests run on one machine",
  [T+"nb_cpu_cores.py", "src/fluidimage/config.py:get_config", E+"base.py:ExecutorBase.__init__"])
p("C97","Images processed by a function of the user",
  "A function, a class or any callable object (or the text of its import path) given as im2im is called exactly once with the tuple (path, image) for each image of the series, and each image it returns is saved once under the name of the input image (or returned with the same path); the same argument is used by the topology, the filter of a series, the display and process_1_image. Names given with arrays are the names used in the result.",
  "every function of the user (with exceptions), every set of images, unreadable images, every schedule of the asynchronous executor",
  "the argument depends on the entry point; the files depend on the schedule and on the failures",
  [T+"image2image.py:TopologyImage2Image", W+"image2image.py:init_im2im_function", W+"image2image.py:WorkImage2Image", "src/fluidimage/image2image.py:apply_im2im_filter", W+"__init__.py:BaseWorkFromImage.process_1_image", W+"__init__.py:BaseWorkFromSerie.calcul_from_arrays"])
p("C98","Optical path of a pixel (direct calibration)",
  "If the physical points given by the calibration levels for a pixel are on one optical path, the line computed for this pixel is this path: its point is on the path and its direction is the unit vector of the path, upwards, even if some levels do not see the pixel. A line is given as soon as two levels see the pixel. The points of a calibration file are read with their own coordinates and pixels, and the arrays of the optical paths have at each node its own line.",
  "every number of levels, every optical path which is not horizontal, every set of levels which see the pixel, every singular value decomposition",
  "depends on which levels see the pixel and on the choice of the singular vectors",
  ["src/fluidimage/calibration/calib_direct.py:get_points", "src/fluidimage/calibration/calib_direct.py:CalibDirect.pixel2line", "src/fluidimage/calibration/calib_direct.py:CalibDirect.compute_interpolents_pixel2line"])
p("C99","Image viewer",
  "After any sequence of clicks (+1, -1, +n, -n, reload, auto), of alt+s and of values entered for n and for the colour limits, the image seen is the one whose name is in the title: the image number (first + sum of the steps) modulo the number of images, with the colour limits asked for. Two alt+s come back to the same image. An image which cannot be read or a bad value of n does not prevent from seeing the others.",
  "every sequence of events, every number of images, unreadable images, every text",
  "the images already loaded, the layers of the figure and the flags depend on the whole history",
  ["src/fluidimage/gui/imviewer.py:ImageViewer", "src/fluidimage/gui/base_matplotlib.py:AppMatplotlibWidgets"])
p("C100","Viewer of PIV files",
  "After any sequence of clicks on -1 and +1 and of texts entered in the box, the file displayed is the one asked for (modulo the number of files for the buttons, the closest existing number for the box, no change for a text which is not an integer), its number is in the box and its name in the title, and the arrows are its final vectors at their positions. The vectors of a file are those of its last pass.",
  "every sequence of events and texts, every number of files and of passes, unreadable files, files with different grids",
  "depends on the history of the window and on callbacks which call each other through the text box",
  ["src/fluidimage/gui/piv_viewer.py:VectorFieldsViewer", "src/fluidimage/gui/piv_viewer.py:get_piv_data_from_path"])
p("C101","Grid recomputed from a PIV result",
 "get_grid_pixel, called on a PIV result or on a PIV file, returns the two one-dimensional arrays of the positions of the vectors of the chosen pass, in the coordinates of the image: for the first pass the vectors are exactly at the points of this grid, for the next passes they are at less than half their displacement from it. It holds for each couple of a series, with or without a crop, and a negative index counts the passes from the last one.",
 "every image shape, window size, overlap, crop, number of passes, index of pass and sequence of couples treated by the same work",
 "the grid is recomputed from the saved shape of the image instead of being saved; tests use one image shape without a crop",
 ["src/fluidimage/postproc/piv.py: get_grid_pixel", "src/fluidimage/postproc/piv.py: get_grid_pixel_from_piv_file", D+"piv.py: HeavyPIVResults.get_grid_pixel", D+"piv.py: MultipassPIVResults.get_grid_pixel", W+"piv/singlepass.py: BaseWorkPIV._prepare_with_image", W+"piv/singlepass.py: BaseWorkPIV.calcul", W+"with_mask.py: BaseWorkWithMask._xyoriginalimage_from_xymasked"])
p("C102","Reference of a BOS computation",
 "params.reference designates the reference image: an integer k the image number k of the series, an absolute path this file, a file name the file of the directory of the images; any other value raises a ValueError. A BOS field is computed exactly once for each image of the series except the reference.",
 "every series of images, value of params.reference and content of the directories",
 "depends on the names of the files of the user (number of digits, subdirectories, current directory)",
 [W+"bos.py: WorkBOS._init_path_reference", T+"bos.py: TopologyBOS._fix_indices_images", T+"base.py: TopologyBaseFromImages.fill_queue_paths"])
p("C103","The filters of a vector field return values that do not depend on the outside of the domain","For every vector field, every window and every local filter: median_filter and gaussian_filter with valid=True return the field without the points for which the window goes out of the domain. The values returned are those of the filtered physical field whatever this field is outside of the measured domain, at the coordinates returned, and the three components are filtered. After k iterations the values at k half windows of the borders have this property.","every field, every window, number of iterations, values and physical fields that continue the measured values","tests look at the shape of the returned field for one size and one iteration",["src/fluidimage/postproc/vector_field.py:VectorFieldOnGrid.median_filter","src/fluidimage/postproc/vector_field.py:VectorFieldOnGrid.gaussian_filter","src/fluidimage/postproc/vector_field.py:VectorFieldOnGrid.extract"])
VF="src/fluidimage/postproc/vector_field.py:VectorFieldOnGrid."
p("C104","A vector field saved is read again unchanged","For every vector field obtained by constructions, operators, extractions, regularizations and reads: the file written by save is read by from_file of the same class, which gives a field with the same coordinates, the same three components, the same names, units, name and history and the parameters given to save or those of the field; saving the field that was read gives the same file. Another class refuses the file.","every field a program can hold, all parameters given to save","tests save and read one field made from a PIV file by hand",[VF+"save",VF+"from_file",VF+"__init__"])
p("C105","The operations on vector fields give the right values and keep the metadata","For all fields and numbers: an operator gives, on the grid of its operands, the operation on the values at each point, for the three components, and keeps the names and units; fields on different grids are refused. An extraction keeps the names, the units and the parameters and adds one line to the history.","all fields, numbers, operations on values, sequences of extractions","tests compare one sum and one product of fields on the same grid",[VF+"__add__",VF+"__sub__",VF+"__mul__",VF+"__truediv__",VF+"extract"])
p("C106","regularize_grid makes a grid regular or leaves the field unchanged","For every field: is_grid_regular tells whether the grid of the field is regular. regularize_grid makes the grid regular, by removing nothing but the last line or the last column with their values, exactly when this is possible; otherwise it raises and the field is unchanged.","all fields, coordinates, tolerances of the comparison of the steps","tests call the method on one regular field",[VF+"regularize_grid",VF+"_init_is_grid_regular",VF+"extract"])
VF="src/fluidimage/postproc/vector_field.py:"
p("C107","The display of a vector field draws each vector at its position","For every vector field and all arguments step and skip: the arrows displayed are those of the points chosen (one in step along each axis, or those of the two slices), each at the coordinates of its point. Without argument the number of lines of arrows is at most 49 and at least 25 when the field has so many lines. Both arguments together are refused.","all fields, steps and slices","tests display one field with default arguments and check nothing",[VF+"VectorFieldOnGrid.display"])
p("C108","An array of vector fields is a list with one time for each field","For every sequence of calls on an array: the items are those of a Python list, an operation on the array is the operation on each field, the array has one time per field, multiple of the time step given, kept by the parts and the operations; display(ind) shows the field of index ind.","all sequences of append, extend, item assignments, deletions and set_timestep, all indices and operations","tests set the time step once and never display an array",[VF+"ArrayOfVectorFieldsOnGrid.set_timestep",VF+"ArrayOfVectorFieldsOnGrid.append",VF+"ArrayOfVectorFieldsOnGrid.__getitem__",VF+"ArrayOfVectorFieldsOnGrid.display"])
p("C109","The servers of a computation start in the directory of the computation","With the executor based on servers, every server starts, uses the directory of the results chosen for the computation, asks nothing, creates no other directory and leaves the parameters of the computation as they are, for every saving mode; and a computation always has a server.","every file system, saving mode, answers of the user, saving path, type of server and moment when a server starts","Depends on the state of the file system when each process starts.",[E+"servers.py:launch_server",E+"servers.py:WorkerServerMultiprocessing",E+"exec_async_servers.py:ExecutorAsyncServers"])
p("C110","A server answers each job once, in the order of the jobs","A server gives to each job one answer, on the connection of the job, with the name of the work, the key and what the function of the work gives (the value or the exception); the answers come in the order of the jobs; all the jobs are answered whatever the order in which the tasks of the server advance; a job which fails does not prevent the others from being answered; a server which is asked to stop stops.","all interleavings of the tasks of the server and of the messages of the executor, all works, keys, objects and results","Interleavings and failures at any moment.",[E+"servers.py:WorkerServer",E+"servers.py:WorkerServerMultiprocessing.receive",E+"servers.py:WorkerServerMultiprocessing.launch_works",E+"servers.py:WorkerServerMultiprocessing.send",E+"servers.py:WorkerServerMultiprocessing.check_event_has_to_stop"])
p("C111","The deprecated post-processing classes place every vector at its point and give the curl, the divergence and the norm of the present velocities",
"PIV_Postproc(path) puts each vector of the file at the place of its point in the arrays X, Y, U, V. compute_rot() and compute_div() return the curl and the divergence of the velocities the object has at that moment, with the border scheme asked by edge_order; displayf shows the norm of the vectors it is given. PIV_PostProc_serie(paths) does the same for every file of a list and set_time(dt) gives the file i the time i dt.",
"every file of vectors in any order, every grid, steps and velocity field, every sequence of assignments and calls on an object, every list of files",
"The order of the points, the velocities and the history of calls of an object are unbounded; the constructor of the series has no successful run to test and the classes are said to be untested.",
[PP+"postproc.py:compute_grid", PP+"postproc.py:compute_derivatives", PP+"postproc.py:PIV_Postproc", PP+"postproc.py:PIV_PostProc_serie"])
p("C112","A topology can be computed again",
"compute() can be called several times for one topology, with any executor at each call. Each call treats the series (or images) defined by the parameters: all of them, or with how = 'complete' exactly those which have no result at that moment, for example those which failed in the previous call or whose result was removed.",
"every series and number of processes, every sequence of calls with any executors, of failures of any items and of removals of results",
"The property is about the state left in the topology by any history of calls; a test runs one or two calls, with few items, and usually one executor.",
[E+"multi_exec_async.py:MultiExecutorAsync._start_multiprocess_series", E+"multi_exec_async.py:MultiExecutorAsync._start_multiprocess_first_queue", E+"multi_exec_subproc.py:MultiExecutorSubproc._init_num_expected_results", E+"base.py:ExecutorBase._init_num_expected_results", T+"base.py:TopologyBaseFromSeries.init_series", T+"base.py:TopologyBase.compute"])
p("C113","The figures made from a log show what the workers did",
  "Given the log of an execution, the figure of the number of workers shows, for each work, at each time between its first beginning and its last known event, the number of its executions which are going on; the numbers are never negative and never above the number of executions which are really simultaneous; with the argument str_names it shows the works the names of which contain it. The figure of the durations shows each execution from its beginning to its end at the height of its duration, and the mean duration; the line of the memory goes forward in time.",
  "all logs (any number of works, executions, overlaps, equal times, executions the end of which is missing, main file and files of the processes), all values of str_names, all orders numpy may give to equal times, all times",
  "The curve is a sum over sorted events which must agree with the interleaving of the executions at every instant; the tests only check that the figures are made.",
  [T+"log.py: LogTopology.plot_nb_workers", T+"log.py: LogTopology.plot_durations", T+"log.py: LogTopology.plot_memory"])
p("C114","The display of a PIV result shows, for the arrow clicked on, the vector of this arrow",
"When a PIV result is displayed, the arrows drawn are those of the result: on each vector its displacement, on each removed vector its removed displacement. After any history of clicks and keys, a click on an arrow shows the number, the position, the displacement (the removed one for a vector which has been removed), the correlation and the error of the vector of this arrow, and puts the point on it; the marks drawn on the correlation are at the indices of the displacements of this vector; alt+s switches the image and alt+left and alt+right change the selected vector; the display does not change the result. REFUTED in parts: a click on the vector 0 shows nothing as long as no other vector has been selected; alt+left and alt+right never change anything; without images the vertical displacements of the result are changed in place, so that a second display is upside down; the mark of the absence of displacement is at the right place exactly for a square correlation; with show_interp the displacement shown is the one of another vector, or there is an IndexError.",
"every result whose arrays have the same size and whose removed vectors are in the dictionary of the wrong vectors, with or without images, errors and correlations, and every history of clicks on arrows and keys",
"The text depends on the history of the events and on the correspondence between three collections of arrows and the vectors; a test would have to click on every arrow after every history, in a graphical session.",
[D+"display_piv.py: DisplayPIV", D+"piv.py: HeavyPIVResults.display", C+"correl.py: compute_indices_from_displacement"])
p("C115","Each failure of a work leaves its report",
"During an execution, each failure of a work on an item leaves, in the directory of the log, a report with the name of the work, the key of the item and the traceback; there is exactly one report per failure: the works which come after do not run on this item and leave no report, the last one tells that the item could not be treated. Without stop_if_error a failure does not stop the execution; with it the execution ends at the first failure with its exception, and its report is the only one. REFUTED in parts: two works can write in the same file (for example 'a' with the key 'b_k' and 'a b' with the key 'k'), the second report replaces the first one (exact condition; this cannot happen with the works of the topologies of fluidimage); if the work which fails or its key has a slash in its name, the report cannot be written and the execution ends with a FileNotFoundError.",
"every chain of works, every set of items, every function of the works (which items fail, where, with which traceback), every order in which the executor treats the items, with or without stop_if_error",
"The reports depend on all the failures of an execution, on their order and on the names of the works and keys; a test makes one work fail on one item.",
[E+"base.py: ExecutorBase.log_exception", T+"base.py: Work.check_exception", T+"base.py: Work.__init__", E+"exec_sequential.py: ExecutorSequential._run_works", E+"exec_async.py: ExecutorAsync.async_run_work_io"])
p("C116","The tools of brightness and contrast do to each pixel what they document",
"rescale_intensity_tanh gives floor(max(img) * tanh(img/threshold)) with threshold = 2*rms by default, keeps the order of the pixels and sets the maximum by the threshold; rescale_intensity brings the image to the given range by a multiplicative factor; equalize_hist_adapt and equalize_hist_local keep the range of brightness of the image; adaptive_threshold gives a binary image; sharpen gives blurred + alpha*(blurred - filter_blurred).",
"for every image (any size, dtype and pixel values), threshold, range, factor, and every equalisation, local mean and Gaussian filter",
"the wrapping of integers, uniform images and images of zeros are rare in the images of the tests, which only check that the tools run",
["src/fluidimage/works/preproc/_toolbox_py.py: rescale_intensity, rescale_intensity_tanh, equalize_hist_adapt, equalize_hist_local, adaptive_threshold, sharpen"])
p("C117","The graph of a topology shows its queues, its works and how they are linked",
"The dot file written by make_code_graphviz has the given name (with .dot), one node per queue and per work with its name, and exactly one link per input queue and per output queue of each work, with the attributes of its kind; a work refused by add_work because its name is already used is not in the topology.",
"for every topology (any number of queues and works, names, kinds, single queues or tuples) and every sequence of calls of add_queue and add_work",
"tests write the graph of a few topologies and do not read it",
[T+"base.py: TopologyBase.add_queue, add_work, make_code_graphviz"])
p("C118","The objects which compute correlations honour displacement_max, and the value at the indices of a displacement is the correlation for this displacement",
"For every method of correlation, every pair of shapes of windows and every displacement_max (None, a number, a percentage): an object is created and only the displacements not larger than displacement_max are searched (a percentage being the one of the largest side); with scipy, for all images and all windows, the value at the indices which the object gives for a displacement is the sum over the second window of the products with the pixels of the first image moved by this displacement; and multiplying one image by a constant leaves the normalised correlation unchanged. REFUTED: with a displacement_max the pythran and pycuda classes can not be created (UnboundLocalError), the scipy classes ignore it; with scipy.signal the correlation is shifted by one pixel when the sides of the windows have different parities; with scipy.ndimage the normalised correlation scales with the light of the first image.",
"all methods, shapes, displacement_max, images, centres and displacements",
"unit tests use a few shapes (mostly even and equal) and one displacement; the shift depends on the parities of both windows and the equality must hold for all images and displacements",
[C+"correl.py:parse_displacement_max",C+"correl.py:CorrelBase.__init__",C+"correl.py:CorrelPythran",C+"correl.py:CorrelPyCuda",C+"correl.py:CorrelScipySignal",C+"correl.py:CorrelScipyNdimage",C+"correl.py:CorrelFFTBase",C+"correl.py:_norm_images",W+"piv/singlepass.py:_crop_im0"])
p("C119","A PIV result saved for UVmat contains every pass, and a reader finds the vectors, the smoothed field and the splines",
"For every list of passes: saving in the format of UVmat succeeds and, for each pass, the file has the positions, the correlations, the displacements (0 instead of nan) and flags which say exactly which vectors are nan, so that a reader recovers the two components; and when the thin plate splines are used the smoothed field and the splines of the pass are in the file. REFUTED: the smoothed field and the splines are silently left out as soon as one vector is nan (or two subdomains have different numbers of coefficients); the second component is recovered exactly when both components are nan together.",
"all lists of passes, all numbers of vectors, all values including nan, all subdomains",
"unit tests save one result without looking at what a reader finds; the loss depends on the data (one nan among thousands of vectors) and is hidden by a bare except",
[D+"piv.py:MultipassPIVResults._save_as_uvmat",D+"piv.py:MultipassPIVResults.save",W+"piv/singlepass.py:apply_interp"])
p("C120","An executor is found by its name when it is installed",
"For every history of a session (packages installed, questions, computations): compute(executor=name) uses the class of the installed executor of this name, and raises NotImplementedError if there is none. REFUTED: what is known is fixed at the first question (unless get_entry_points(reload=True) is called), even if nothing was found at this time; and a name provided by two packages raises NameError instead of a warning.",
"all histories of installations, questions (with or without reload), imports and computations, all entry points",
"unit tests run with one set of installed packages and can not install packages during a session",
[E+"__init__.py:get_entry_points",E+"__init__.py:get_executor_names",E+"__init__.py:_get_module_fullname_from_name",E+"__init__.py:import_executor_class",T+"base.py:TopologyBase.compute"])
p("C121","A work used without a topology processes the serie given by its parameters",
"For every history of changes of the parameters, changes of the files and calls of a work (get_serie, process_1_serie, display): a call gives the serie of the asked index (by default the first one) for the present parameters; the display of the preprocessing shows the first images of two consecutive series before and after. REFUTED for the parameters: the series are those of the first call which could create them.",
"all histories of changes and calls, all indices, all functions which create the series",
"unit tests call each work once; the result depends on the whole history of the object",
[W+"__init__.py:BaseWorkFromSerie.get_serie",W+"__init__.py:BaseWorkFromSerie.process_1_serie",W+"__init__.py:BaseWorkFromImage.get_tuple_image_name",W+"preproc/__init__.py:WorkPreproc.display"])
p("C122","Surface tracking finds the wavenumber of the pattern and filters around it","For every reference frame in which one number of periods along the lines is stronger than any other one, this number of periods is the wave vector used to rectify the frames, whatever the phase and the contrast of the pattern and the size of the frame; the gain moves it to the frequency zero without changing the amplitudes; the filter is between 0 and e and removes exactly the plane waves of plus and minus this number of periods. A reference frame without pattern is not silently accepted.","all frames, frame sizes (even and odd), oversampling factors, numbers of periods, phases, contrasts and filter widths","a test uses one reference image, whose size is even; the statement is about all sizes and all patterns",["src/fluidimage/works/surface_tracking.py:WorkSurfaceTracking.wave_vector","src/fluidimage/works/surface_tracking.py:WorkSurfaceTracking.set_gain_filter","src/fluidimage/works/surface_tracking.py:WorkSurfaceTracking.rectify_frame"])
p("C123","Temporal spectra of an array of fields",
"For an array of vector fields with a time step, compute_temporal_fft returns for each point of the grid and each component the Fourier coefficients in time of the values of this point at the pulsations returned, in growing order and centred on zero, and spectral densities whose integral is half the mean square of these values; it fails exactly when times are missing, when there are less than two times, no field, or arrays which do not fit the shape of the first field; this remains true after further fields are appended.",
"all arrays of fields (any number of fields, any shape, any values), all time steps, all histories set_timestep then append",
"the identity is over all real values, numbers of fields and shapes, including the histories where times and fields no longer have the same length",
[PP+"vector_field.py: ArrayOfVectorFieldsOnGrid.set_timestep, append, compute_temporal_fft", PP+"util.py: compute_1dspectrum"])
p("C124","Mouse wheel on the display of an array of fields",
"On the figure of an array of vector fields, each move of the mouse wheel goes to the next or to the previous field, cyclically, and draws the colours and the arrows of this field and prints its time, whatever the sequence of moves, the shape of the fields and whether or not times have been set.",
"all arrays of fields of one shape, all starting indices, all sequences of moves of the wheel",
"histories of events of any length, shapes of any size, and the partial updates left by an exception raised in a callback",
[PP+"vector_field.py: ArrayOfVectorFieldsOnGrid.display, onscroll; VectorFieldOnGrid.display"])
p("C125","Synthetic images",
"The two images made by make_synthetic_images are two views of one pattern of Gaussian particles, the second one displaced by the given displacement: a pixel of the second image has the value of the pixel of the first one from which it has been displaced (plus the noise if asked), the particles are drawn in the rectangle of the first image enlarged by the displacement on all sides, a smaller second image is centred in the first one with margins equal within one pixel, and the call is refused exactly for empty images and second images larger than the first one.",
"all random draws, displacements (any sign, fractional), numbers of particles, shapes, noise levels and particle sizes",
"identity over all displacements, shapes and random draws; the tests look at one displacement and never at the pixels",
["src/fluidimage/synthetic.py: make_synthetic_images"])
p("C126","Tsai calibration with arrays and displacements",
"phys2pix with arrays of points returns the pixel of each point, leaves the arrays of the caller unchanged and gives the same answer when it is called again, with or without an interface; pix2phys_UV returns the displacement in the slice from the point seen half a displacement before the position to the one seen half a displacement after, zero for no displacement and opposite for the opposite displacement.",
"all calibrations, arrays of any length and content (also one array used for two coordinates), positions and displacements",
"identities over all cameras, points and displacements, and an effect on the arguments that no test looks at",
["src/fluidimage/calibration/calib_tsai.py: Calibration.pix2phys_UV, phys2pix"])
p("C127","A run asked to stop with the signal 12 ends cleanly","When an executor receives the signal 12, the computation is stopped: the run ends, the functions which are being executed are executed to their end, every item is either saved with the result it would have had without the signal or has not been treated, no item is begun after the signal, what has been computed is saved, and an executor with several processes transmits the request to all its processes which are still running. (Ends, nothing mixed up and running functions finished: hold for every chain. False: works go on beginning new items as long as they find some, even all of them; a result computed when the signal arrives can be left in a queue without being saved because the next work has already returned; with several processes, as soon as one process has ended and been waited for, the handler raises ProcessLookupError, the following processes are not told and compute() is left.)","every chain of works, every set of inputs, limits of workers and queues, every schedule and every instants of the signals; every number of processes and every history of ends of processes and turns of the loop of the parent","the effect depends on the instant of the signal relative to all the threads and loops, tests can only send it at a few instants",[E+"base.py: ExecutorBase.__init__.handler_signals",E+"base.py: MultiExecutorBase.compute.handler_signals",E+"exec_async.py: ExecutorAsync.define_functions",E+"exec_async.py: ExecutorAsync.update_has_to_stop"])
p("C128","Computation started from a file of instructions","python -m fluidimage.run_from_xml FILE [--mode M] launches the UVmat action of the file when the file has an action (only civ_series exists, another one is refused), otherwise the class named by a parameter file of fluidimage, and refuses the other files. For UVmat every PIV parameter (paths, series, window sizes made even, number of passes, splines, thresholds of the false vectors) is the one of the instructions, or the default one when the element is absent; a second pass with windows halved is done exactly with the element Civ2. Exactly the files with the elements needed are accepted. The mode asked for is the one used; successive runs with new_dir never share a directory; without mode, or with recompute or complete, the directory is the one of the instructions and nothing else changes on the disk; an unknown mode is refused.","every file, mode, image directory, content of the disk and sequence of runs","The combinations of optional elements, modes and previous runs are unbounded; the tests launch two fixed instruction files once.",["src/fluidimage/run_from_xml.py: main, modif_params_with_args","src/fluidimage/uvmat.py: ActionBase, ActionPIVFromUvmatXML.params_from_uvmat_xml",T+"base.py: prepare_path_dir_result",W+"piv/multipass.py: WorkPIV.__init__"])
p("C129","multi_exec_subproc returns whatever the processes print","With multi_exec_subproc, compute() returns once every process has treated its items, whatever the processes write on their standard streams and in whatever order they progress; what the works print on stdout never stops a process of a topology which lists its results.","every list of programs (sequences of writes of any size on stdout and stderr), pipe capacity and interleaving","A process blocks only when a pipe which nobody reads is full, after an amount of output no test produces; the schedules of the processes are unbounded.",[E+"multi_exec_subproc.py: MultiExecutorSubproc._start_processes",E+"base.py: ExecutorBase.__init__, MultiExecutorBase.compute",E+"exec_async_seq_for_multi.py: ExecutorAsyncSeqForMulti.__init__"])
p("C130","Ctrl+C stops a computation","When Ctrl+C is received during a computation, no function of a work is called any more, the functions being executed in threads are executed to their end, once, and the call of compute ends with KeyboardInterrupt: whatever the instant, whatever the computations done before in the same session, sequential or asynchronous. A computation can then be started again in the same directory.","all topologies, all executions of exec_async, all instants of the interruption, all executions after it; all histories of sequential and asynchronous computations in a session","the instant of the signal with respect to the tasks and threads, and what the previous computations of the session have left (handler, lock), cannot be enumerated by tests",[E+"exec_async.py: ExecutorAsync.__init__ (signal_handler), compute, start_async_works, async_run_work_io, async_run_work_cpu",E+"exec_sequential.py: ExecutorSequential._run_works",E+"base.py: ExecutorBase._save_lock_file, _release_lock, exec_one_shot_works, _finalize_compute"])
p("C131","The circles of a calibration target are found and given row by row","detect_grid(image, origin, nx, ny, ds) returns the positions of the nx by ny circles of the target centred on the origin, row by row, whatever the order in which the blobs are detected, for small errors on the positions, wherever the origin is, and also if the target has more circles than nx by ny.","all positions of blobs (rationals), all origins, spacings and sizes, all orders of detection","the positions and the origin are real numbers; the failures only appear for particular ratios of the origin to the spacing or for larger targets",["src/fluidimage/calibration/calib_cv.py: SimpleCircleGrid.detect_all, SimpleCircleGrid.detect_grid"])
p("C132","A calibration with OpenCV which has been computed is saved","After calibrate, a new CalibCV object created with the same path has the calibration which has just been computed, for all the sequences of calibrations and for the default path.","all sequences of calibrations (debug or not) with objects of any paths, all initial contents of the files","depends on the history of the files",["src/fluidimage/calibration/calib_cv.py: CalibCV.__init__, CalibCV.save, CalibCV.calibrate"])
p("C133","Tomography: a camera gives to a voxel the intensity of its image at the pixel of the voxel","With the nearest neighbour interpolation, a voxel projected in a pixel of the image gets the intensity of this pixel, zero if the pixel is dark or below the threshold, so that a voxel which one camera sees dark is dark after the reconstruction. The result does not depend on the number of CPUs and on the memory available, and exists for every number of voxels.","all images, thresholds, positions, numbers of cameras, of voxels and of CPUs","The tests reconstruct one volume and do not look at the intensities; all images and sizes.",["src/fluidimage/reconstruct/tomo/mlos.py:TomoMLOSNeighbour.get_interpolator","src/fluidimage/reconstruct/tomo/mlos.py:TomoMLOSBase.reconstruct","src/fluidimage/reconstruct/tomo/mlos.py:TomoMLOSCV.reconstruct"])
p("C134","Tomography: the file of a volume has the product of its cameras","For every sequence of calls init_paths(image) and reconstruct(pix, image, save=True), for images of any cameras and times in any order, the file of each volume has for each voxel the product of the roots of the intensities given for this volume, and no other file changes; reconstruct saves in the file of the image it is given; the intensities can be used in memory after each call; clear puts them to one; a program stopped at any point can be run again without losing the previous cameras.","all sequences of calls, images, intensities, all points where the program is stopped","Histories and crash points of any length; the tests make one volume without stop.",["src/fluidimage/reconstruct/tomo/mlos.py:TomoMLOSBase.reconstruct","src/fluidimage/data_objects/tomo.py:ArrayTomoBase.init_paths","src/fluidimage/data_objects/tomo.py:ArrayTomoBase.save","src/fluidimage/data_objects/tomo.py:ArrayTomoBase.load_dataset","src/fluidimage/data_objects/tomo.py:ArrayTomoBase.clear"])
p("C135","Tomography: each camera is projected with its own calibration","An object created with the files of calibration of several cameras lists them in the order given, and each camera is projected with the calibration of its own file, whatever the names of the files; the volume is not affected by the names of the cameras.","all lists of files and calibrations","All names; the tests use cam0 to cam3.",["src/fluidimage/reconstruct/tomo/mlos.py:TomoMLOSBase.__init__"])
p("C136","Points of the figures which check a direct calibration",
"The figures made by check_interp_levels and check_interp_lines_coeffs show, and check_interp_lines draws one line for, a regular grid of pixels of the image: all the multiples of a step from the first pixel in each direction, with the value of the interpolation at each of these pixels. There are at least as many pixels in each direction as the number asked for, and less than twice as many. The figures can be made for every image.",
"every size of the image, every number of points, every number of levels, every interpolation",
"Tests use one image, which is large compared with the number of points, and do not look at the figures; the count and the failure depend on the division of two integers.",
["src/fluidimage/calibration/calib_direct.py: CalibDirect.check_interp_levels, CalibDirect.check_interp_lines, CalibDirect.check_interp_lines_coeffs"])
p("C137","The file in which a result of PIV is saved",
"A result of PIV (of one pass, of several passes, or light) can be saved, also when it has been read in a file: in the file which is given (several passes) or in a file of the directory which is given, whose name is made from the names of the images, or is the name of the file which has been read, with \"_light\" for a light result. Different results saved in one directory are in different files, and the light result does not replace the file from which it is made.",
"every name of image, every path of the file read, every directory or file given, every kind, every number of passes and index of pass",
"Tests save one result of each class with one name; collisions of names, the extension of the path and the results which have been read depend on all the names and on the history of the object.",
["src/fluidimage/data_objects/piv.py: HeavyPIVResults.save, HeavyPIVResults._get_name, MultipassPIVResults.save, MultipassPIVResults._get_name, MultipassPIVResults.make_light_result, LightPIVResults.save, LightPIVResults._get_name, ArrayCouple._load, ArrayCouple._compute_name_from_names"])
open('/verif/properties.jsonl','w').write("".join(json.dumps(x)+"\n" for x in P))
print(len(P))
