{
 "claims": [
  {
   "property": "C01",
   "status": "proved",
   "theorems": [
    "C01_encode_decode_roundtrip",
    "C01_roundtrip_no_batch"
   ],
   "note": "Also shows by example that the 16-bit batch range is sharp."
  },
  {
   "property": "C02",
   "status": "proved",
   "theorems": [
    "C02_decode_encode_roundtrip"
   ],
   "note": ""
  },
  {
   "property": "C03",
   "status": "proved",
   "theorems": [
    "C03_bit_layout",
    "C03_coordinates_wrap",
    "C03_table_equals_loop",
    "C03_int_batch_rejected"
   ],
   "note": "Includes modular aliasing of out-of-range coordinates and the rejection of a plain int batch argument."
  },
  {
   "property": "C04",
   "status": "proved",
   "theorems": [
    "C04_parent_and_octant"
   ],
   "note": ""
  },
  {
   "property": "C05",
   "status": "proved",
   "theorems": [
    "C05_key_order",
    "C05_keys_injective"
   ],
   "note": ""
  },
  {
   "property": "C06",
   "status": "proved",
   "theorems": [
    "C06_tables_history_independent"
   ],
   "note": ""
  },
  {
   "property": "C07",
   "status": "proved",
   "theorems": [
    "C07_search_key_exact"
   ],
   "note": ""
  },
  {
   "property": "C08",
   "status": "partial",
   "theorems": [
    "C08_search_xyzb_exact",
    "C08_out_of_range_aliases",
    "C08_unrestricted_refuted"
   ],
   "note": "Proved for coordinates in [0,2^depth). For any other coordinates the search answers for the wrapped-around cell (proved), so the unrestricted claim is refuted with a witness."
  },
  {
   "property": "C09",
   "status": "proved",
   "theorems": [
    "C09_finest_nodes_are_occupied_cells"
   ],
   "note": ""
  },
  {
   "property": "C10",
   "status": "proved",
   "theorems": [
    "C10_point_to_node_map"
   ],
   "note": ""
  },
  {
   "property": "C11",
   "status": "proved",
   "theorems": [
    "C11_build_well_formed",
    "C11_layer_invariants"
   ],
   "note": ""
  },
  {
   "property": "C12",
   "status": "proved",
   "theorems": [
    "C12_layer_occupancy",
    "C12_full_layers_complete"
   ],
   "note": ""
  },
  {
   "property": "C13",
   "status": "proved",
   "theorems": [
    "C13_counters_truthful"
   ],
   "note": ""
  },
  {
   "property": "C14",
   "status": "proved",
   "theorems": [
    "C14_signals_are_averages"
   ],
   "note": ""
  },
  {
   "property": "C15",
   "status": "proved",
   "theorems": [
    "C15_average_stays_in_cell",
    "C15_coordinate_range"
   ],
   "note": "Averaged points stay in their cells, local coordinates in [-1/2,1/2), global ones in [-1,1)."
  },
  {
   "property": "C16",
   "status": "proved",
   "theorems": [
    "C16_point_order_irrelevant"
   ],
   "note": ""
  },
  {
   "property": "C17",
   "status": "partial",
   "theorems": [
    "C17_half_open_range",
    "C17_closed_range_refuted"
   ],
   "note": "Proved for [-1,1). The documented closed range is refuted: a coordinate equal to +1 is stored in the cell at the opposite face."
  },
  {
   "property": "C18",
   "status": "proved",
   "theorems": [
    "C18_batched_build"
   ],
   "note": "All layers agree except the per-batch counters batch_nnum / batch_nnum_nempty, which only merge_octrees fills; the point-to-node maps are related too."
  },
  {
   "property": "C19",
   "status": "proved",
   "theorems": [
    "C19_split"
   ],
   "note": ""
  },
  {
   "property": "C20",
   "status": "proved",
   "theorems": [
    "C20_histories"
   ],
   "note": ""
  },
  {
   "property": "C21",
   "status": "proved",
   "theorems": [
    "C21_regrow",
    "C21_regrow_built"
   ],
   "note": ""
  },
  {
   "property": "C22",
   "status": "proved",
   "theorems": [
    "C22_init_dense"
   ],
   "note": ""
  },
  {
   "property": "C23",
   "status": "proved",
   "theorems": [
    "C23_neighbourhoods_correct"
   ],
   "note": ""
  },
  {
   "property": "C24",
   "status": "proved",
   "theorems": [
    "C24_symmetric_same_batch"
   ],
   "note": ""
  },
  {
   "property": "C25",
   "status": "proved",
   "theorems": [
    "C25_full_sparse_agree"
   ],
   "note": ""
  },
  {
   "property": "C26",
   "status": "proved",
   "theorems": [
    "C26_get_neigh_stride1",
    "C26_get_neigh_stride2",
    "C26_other_strides_rejected"
   ],
   "note": ""
  },
  {
   "property": "C27",
   "status": "proved",
   "theorems": [
    "C27_other_kernels_rejected",
    "C27_kernel_boxes"
   ],
   "note": "Same theorem as C26 for the accepted strings, plus rejection of every other string."
  },
  {
   "property": "C28",
   "status": "proved",
   "theorems": [
    "C28_queries_do_not_modify"
   ],
   "note": ""
  },
  {
   "property": "C29",
   "status": "proved",
   "theorems": [
    "C29_merge",
    "C29_cells"
   ],
   "note": "Stated for members with batch_size 1, as documented."
  },
  {
   "property": "C30",
   "status": "partial",
   "theorems": [
    "C30_batched_members_refuted"
   ],
   "note": "Refuted for every list with a batched member: the result has duplicate keys and is not well formed. The guarded claim (single-sample members) is C29."
  },
  {
   "property": "C31",
   "status": "proved",
   "theorems": [
    "C31_merge_points",
    "C31_batch_id",
    "C31_split_recovers",
    "C31_missing_attribute"
   ],
   "note": ""
  },
  {
   "property": "C32",
   "status": "proved",
   "theorems": [
    "C32_merged_neighbours"
   ],
   "note": ""
  },
  {
   "property": "C33",
   "status": "proved",
   "theorems": [
    "C33_pad_depad"
   ],
   "note": ""
  },
  {
   "property": "C34",
   "status": "proved",
   "theorems": [
    "C34_col_adjoint"
   ],
   "note": ""
  },
  {
   "property": "C35",
   "status": "proved",
   "theorems": [
    "C35_buffer_independent",
    "C35_small_buffer_fails"
   ],
   "note": ""
  },
  {
   "property": "C36",
   "status": "proved",
   "theorems": [
    "C36_dense_stride1",
    "C36_dense_stride2"
   ],
   "note": ""
  },
  {
   "property": "C37",
   "status": "proved",
   "theorems": [
    "C37_conv_gradients"
   ],
   "note": ""
  },
  {
   "property": "C38",
   "status": "proved",
   "theorems": [
    "C38_deconv_transpose",
    "C38_deconv_gradients",
    "C38_deconv_buffer_independent",
    "C38_deconv_no_rows_fails"
   ],
   "note": ""
  },
  {
   "property": "C39",
   "status": "proved",
   "theorems": [
    "C39_dwconv_diagonal",
    "C39_dwconv_gradients"
   ],
   "note": ""
  },
  {
   "property": "C40",
   "status": "proved",
   "theorems": [
    "C40_group_conv"
   ],
   "note": ""
  },
  {
   "property": "C41",
   "status": "proved",
   "theorems": [
    "C41_conv_of_merged"
   ],
   "note": ""
  },
  {
   "property": "C42",
   "status": "proved",
   "theorems": [
    "C42_max_pool"
   ],
   "note": ""
  },
  {
   "property": "C43",
   "status": "proved",
   "theorems": [
    "C43_unpool",
    "C43_round_trip"
   ],
   "note": ""
  },
  {
   "property": "C44",
   "status": "partial",
   "theorems": [
    "C44_finite_iff_branching",
    "C44_built_partial",
    "C44_merged_partial",
    "C44_built_refuted",
    "C44_grown_refuted"
   ],
   "note": "Finite iff every non-empty parent has a non-empty child (proved). Proved for built and merged octrees away from layer full_depth; refuted with witnesses at layer full_depth of a built octree and for a split/grow history."
  },
  {
   "property": "C45",
   "status": "proved",
   "theorems": [
    "C45_avg_pool"
   ],
   "note": ""
  },
  {
   "property": "C46",
   "status": "partial",
   "theorems": [
    "C46_avg_height_partial",
    "C46_avg_height_refuted"
   ],
   "note": "Refuted: the result has one row per non-empty coarse node. Proved that the claim holds exactly if no coarse node is empty."
  },
  {
   "property": "C47",
   "status": "proved",
   "theorems": [
    "C47_global_pool",
    "C47_merged"
   ],
   "note": ""
  },
  {
   "property": "C48",
   "status": "proved",
   "theorems": [
    "C48_group_norm",
    "C48_per_sample",
    "C48_statistics",
    "C48_instance_norm"
   ],
   "note": "Exact real arithmetic (uses the axioms of Coq's Reals). eps = 1e-5 is part of the statement; the bounds are exact, not approximate."
  },
  {
   "property": "C49",
   "status": "proved",
   "theorems": [
    "C49_drop_path",
    "C49_given_batch_id",
    "C49_identity",
    "C49_all_dropped"
   ],
   "note": ""
  },
  {
   "property": "C50",
   "status": "proved",
   "theorems": [
    "C50_voxels"
   ],
   "note": ""
  },
  {
   "property": "C51",
   "status": "proved",
   "theorems": [
    "C51_nearest"
   ],
   "note": ""
  },
  {
   "property": "C52",
   "status": "proved",
   "theorems": [
    "C52_nearest_upsample"
   ],
   "note": ""
  },
  {
   "property": "C53",
   "status": "proved",
   "theorems": [
    "C53_upsample",
    "C53_same_layer",
    "C53_coarser_rejected",
    "C53_default_target"
   ],
   "note": ""
  },
  {
   "property": "C54",
   "status": "proved",
   "theorems": [
    "C54_linear",
    "C54_convex"
   ],
   "note": ""
  },
  {
   "property": "C55",
   "status": "partial",
   "theorems": [
    "C55_interior_partial",
    "C55_border_refuted",
    "C55_upsample_partial",
    "C55_upsample_refuted"
   ],
   "note": "False of the code: near the border of the volume the default bound_check=False mixes in cells of the opposite border (refuted with a witness). Proved for points at least half a cell away from the border. OctreeUpsample in linear mode: same guarded theorem and refutation (C55_upsample_*)."
  },
  {
   "property": "C56",
   "status": "partial",
   "theorems": [
    "C56_reuse_partial",
    "C56_tensor_changes",
    "C56_reuse_refuted"
   ],
   "note": "False of the code for the default rescale_pts=True (refuted with a witness; every call on points in [-1,1] changes the caller's tensor). Proved for rescale_pts=False and call sequences of any length."
  },
  {
   "property": "C57",
   "status": "partial",
   "theorems": [
    "C57_align_partial",
    "C57_empty_source_refuted"
   ],
   "note": "Proved for every non-empty source layer. A source layer without nodes raises IndexError instead of returning zeros, for every such octree."
  },
  {
   "property": "C58",
   "status": "proved",
   "theorems": [
    "C58_attributes_stay_aligned",
    "C58_constructor"
   ],
   "note": ""
  },
  {
   "property": "C59",
   "status": "proved",
   "theorems": [
    "C59_clip",
    "C59_inbox",
    "C59_clip_then_build"
   ],
   "note": ""
  },
  {
   "property": "C60",
   "status": "proved",
   "theorems": [
    "C60_rotate_is_rigid",
    "C60_translate"
   ],
   "note": ""
  },
  {
   "property": "C61",
   "status": "proved",
   "theorems": [
    "C61_flip",
    "C61_flip_unknown_axis"
   ],
   "note": ""
  },
  {
   "property": "C62",
   "status": "proved",
   "theorems": [
    "C62_scale",
    "C62_zero_factor"
   ],
   "note": "Unit length is stated for normals whose transformed length reaches the 1e-12 clamp of the code; exact reals."
  },
  {
   "property": "C63",
   "status": "proved",
   "theorems": [
    "C63_orient_normal",
    "C63_orient_xyz",
    "C63_orient_unknown_axis",
    "C63_orient_without_normals"
   ],
   "note": ""
  },
  {
   "property": "C64",
   "status": "proved",
   "theorems": [
    "C64_normalize",
    "C64_bbox",
    "C64_normalize_by_bbox"
   ],
   "note": ""
  },
  {
   "property": "C65",
   "status": "partial",
   "theorems": [
    "C65_to_partial",
    "C65_slice_partial",
    "C65_bookkeeping_refuted"
   ],
   "note": "to() resets batch_size to 1 on another device and slicing drops batch_npt (refuted with witnesses); everything else is kept (proved)."
  },
  {
   "property": "C66",
   "status": "partial",
   "theorems": [
    "C66_column_ids_partial",
    "C66_flat_ids_refuted",
    "C66_to_points_refuted"
   ],
   "note": "Refuted for every cloud and octree: a 1-D batch_id is never accepted and to_points never returns. The same ids as an (N,1) column are accepted (proved)."
  },
  {
   "property": "C67",
   "status": "proved",
   "theorems": [
    "C67_unet",
    "C67_lenet",
    "C67_resnet",
    "C67_hrnet",
    "C67_built"
   ],
   "note": "Shapes of every intermediate tensor and of the result for UNet (any configuration), LeNet (depth - stages = 2, which its flattened head needs), ResNet and HRNet, for all weights; batch normalisation is an arbitrary shape-preserving function (of at least lo rows)."
  },
  {
   "property": "C68",
   "status": "partial",
   "theorems": [
    "C68_segnet_partial",
    "C68_segnet_raises",
    "C68_segnet_refuted"
   ],
   "note": "Refuted: with nempty=True the bottleneck convolution raises AssertionError whenever the bottleneck layer has an empty node (proved for all such octrees, with a built witness). Proved to work otherwise."
  },
  {
   "property": "C69",
   "status": "proved",
   "theorems": [
    "C69_kernel_lists"
   ],
   "note": ""
  },
  {
   "property": "C70",
   "status": "partial",
   "theorems": [
    "C70_collate",
    "C70_missing_key",
    "C70_label_names_refuted"
   ],
   "note": "Proved for keys that contain at most one of 'octree' and 'points' and where a key containing 'label' is 'label'. Without that the claim is refuted: values under e.g. 'label_index' replace the labels."
  },
  {
   "property": "C71",
   "status": "proved",
   "theorems": [
    "C71_layout",
    "C71_letters",
    "C71_missing",
    "C71_module"
   ],
   "note": ""
  },
  {
   "property": "C72",
   "status": "partial",
   "theorems": [
    "C72_root_only_always_fails",
    "C72_every_octree_refuted",
    "C72_works_with_root_table"
   ],
   "note": "The claim for every octree is refuted: full_depth = 0 without a root table always raises TypeError. Proved whenever full_depth >= 1 (C23) or the root table is present."
  },
  {
   "property": "C73",
   "status": "proved",
   "theorems": [
    "C73_decode",
    "C73_autoencoder",
    "C73_autoencoder_fixed"
   ],
   "note": "Every weight assignment: the predicted logits decide exactly which nodes are non-empty; both modes of forward are covered."
  },
  {
   "property": "C74",
   "status": "proved",
   "theorems": [
    "C74_scatter_rows",
    "C74_scatter_total",
    "C74_scatter_range",
    "C74_scatter_columns",
    "C74_cumsum",
    "C74_cumsum_ends",
    "C74_cumsum_rows"
   ],
   "note": ""
  },
  {
   "property": "C75",
   "status": "proved",
   "theorems": [
    "C75_single_precision_range",
    "C75_single_precision_monotone",
    "C75_single_precision_exact",
    "C75_largest_below_one_refuted"
   ],
   "note": "IEEE binary32 with rounding to nearest even (Flocq). The statement includes the exact frontier 1-2^-24 from which coordinates wrap to the opposite face."
  },
  {
   "property": "C76",
   "status": "proved",
   "theorems": [
    "C76_example_octree",
    "C76_other_counts"
   ],
   "note": "The number of points is checked by the code to be between 1 and 3."
  },
  {
   "property": "C77",
   "status": "proved",
   "theorems": [
    "C77_transform"
   ],
   "note": "The rotation matrix is an arbitrary matrix (cos and sin are not modelled here; C60 covers them). The theorem covers every draw the code accepts."
  },
  {
   "property": "C78",
   "status": "proved",
   "theorems": [
    "C78_pipeline"
   ],
   "note": ""
  },
  {
   "property": "C79",
   "status": "proved",
   "theorems": [
    "C79_batched",
    "C79_feature",
    "C79_unet",
    "C79_segnet",
    "C79_lenet",
    "C79_resnet",
    "C79_hrnet",
    "C79_autoencoder"
   ],
   "note": "Covers input features, UNet, SegNet, LeNet, ResNet, HRNet and AutoEncoder on given octrees. SegNet with nempty needs the bottleneck layer to have no empty node (otherwise the program itself fails, see C68); networks that max-pool without padding need octrees whose non-empty nodes have a non-empty child (poolable), as every built octree has."
  },
  {
   "property": "C80",
   "status": "partial",
   "theorems": [
    "C80_decode_refuted",
    "C80_decode_partial"
   ],
   "note": "The full claim is refuted with a witness (C80_decode_refuted): octree_split forces the first node to split when no node of the whole batch splits, so a sample that splits nothing gets a child alone but none in a batch. C80_decode_partial proves the claim when every sample asks for a split at every depth; missing is only the case that is false."
  },
  {
   "property": "C81",
   "status": "proved",
   "theorems": [
    "C81_values",
    "C81_wf",
    "C81_back",
    "C81_neigh",
    "C81_merge",
    "C81_copy",
    "C81_same"
   ],
   "note": ""
  },
  {
   "property": "C82",
   "status": "proved",
   "theorems": [
    "C82_replay",
    "C82_reproduce"
   ],
   "note": ""
  },
  {
   "property": "C83",
   "status": "proved",
   "theorems": [
    "C83_iou",
    "C83_accuracy",
    "C83_order",
    "C83_callback",
    "C83_callback_bad"
   ],
   "note": "Sums of counts are exact; the tracker of the solver is modelled as the mean over the batches."
  },
  {
   "property": "C84",
   "status": "partial",
   "theorems": [
    "C84_votes_partial",
    "C84_masked_refuted"
   ],
   "note": "Proved for any history of batches without masked labels; with a masked label evaluation always raises RuntimeError (refuted). Softmax is an arbitrary function of a row; saving to disk is not modelled."
  },
  {
   "property": "C85",
   "status": "proved",
   "theorems": [
    "C85_points",
    "C85_decoded",
    "C85_near",
    "C85_plane"
   ],
   "note": "F.normalize is an arbitrary function of a row."
  },
  {
   "property": "C86",
   "status": "partial",
   "theorems": [
    "C86_merge_partial",
    "C86_digits_refuted"
   ],
   "note": "Proved for chunk numbers 0-9 and whole scenes in any order; every chunk number from 10 to 99 is credited to a different scene name (refuted). Files are given as functions from names to contents."
  },
  {
   "property": "C87",
   "status": "partial",
   "theorems": [
    "C87_chunks_partial",
    "C87_chunks_refuted",
    "C87_whole"
   ],
   "note": "Soundness of the saved masks for all clouds; coverage for clouds without negative coordinates; refuted with the crop size, stride and minimum of the code for a cloud with a negative minimum corner."
  },
  {
   "property": "C88",
   "status": "proved",
   "theorems": [
    "C88_scannet",
    "C88_kitti",
    "C88_kitti_bad"
   ],
   "note": "Buses, rail vehicles and lane markings are not among the kept names and map to 0. The class lists are compared with an independent list of the benchmark's classes."
  },
  {
   "property": "C89",
   "status": "proved",
   "theorems": [
    "C89_parameters",
    "C89_transform",
    "C89_neutral",
    "C89_raises",
    "C89_scale_one"
   ],
   "note": "The generators are arbitrary functions into their ranges; pi is the constant 3.14159265 of the code."
  },
  {
   "property": "C90",
   "status": "proved",
   "theorems": [
    "C90_image2shape",
    "C90_fixed",
    "C90_default"
   ],
   "note": "The image encoder is an arbitrary function; normalisation layers as in C73."
  },
  {
   "property": "C91",
   "status": "proved",
   "theorems": [
    "C91_loss",
    "C91_perfect",
    "C91_widths"
   ],
   "note": "The cross entropy of one row is an arbitrary function of row and label; means are exact."
  },
  {
   "property": "C92",
   "status": "partial",
   "theorems": [
    "C92_values_partial",
    "C92_frame",
    "C92_frame_run",
    "C92_renewed",
    "C92_renewed_objects",
    "C92_shared_refuted"
   ],
   "note": "Proved for clouds that share no tensor (C92_values_partial); for shared tensors it is false of flip and orient_normal('xyz'), which write in place (C92_shared_refuted), and of nothing else (C92_frame)."
  },
  {
   "property": "C93",
   "status": "proved",
   "theorems": [
    "C93_kitti",
    "C93_segmentation",
    "C93_autoencoder",
    "C93_completion",
    "C93_scannet",
    "C93_scannet_distort"
   ],
   "note": "A scale of zero of the auto-encoder is not followed; features of ScanNet that are not numbers are followed only to the point where they arise (C93_scannet_distort)."
  },
  {
   "property": "C94",
   "status": "partial",
   "theorems": [
    "C94_colors",
    "C94_range",
    "C94_dark",
    "C94_numbers_refuted"
   ],
   "note": "That colours stay numbers is false when a channel has one value only (C94_numbers_refuted); the rest is proved."
  },
  {
   "property": "C95",
   "status": "proved",
   "theorems": [
    "C95_round",
    "C95_distance"
   ],
   "note": "The noise is an arbitrary field; scipy's interpolation is modelled on the regular grid, exact arithmetic."
  },
  {
   "property": "C96",
   "status": "partial",
   "theorems": [
    "C96_call",
    "C96_construct_refuted",
    "C96_completion_refuted",
    "C96_decoder_partial",
    "C96_shared_partial",
    "C96_encoder_refuted",
    "C96_grow_partial"
   ],
   "note": "The construction always raises a TypeError (C96_construct_refuted, C96_completion_refuted; C96_call specifies calls by position and keyword), and the encoder calls a method no class defines (C96_encoder_refuted). The decoder is proved for arbitrary features of the encoder on a given output octree (C96_decoder_partial), its result depends only on the features of cells both octrees have (C96_shared_partial), and with such a method the network that grows its octree is proved, with replay on the grown octree (C96_grow_partial)."
  },
  {
   "property": "C97",
   "status": "proved",
   "theorems": [
    "C97_kept",
    "C97_crash"
   ],
   "note": ""
  },
  {
   "property": "C98",
   "status": "partial",
   "theorems": [
    "C98_complete",
    "C98_resume_partial",
    "C98_resume_refuted"
   ],
   "note": "The claim is false if a run is interrupted while it writes an output: the file exists from then on and is skipped by every later run (C98_resume_refuted, for every scene). Proved for all other points of interruption (C98_resume_partial), and for uninterrupted runs (C98_complete)."
  },
  {
   "property": "C99",
   "status": "partial",
   "theorems": [
    "C99_unzip",
    "C99_clean_partial",
    "C99_clean_refuted"
   ],
   "note": "The extraction is proved for all points of interruption (C99_unzip). Cleaning rewrites mesh files in place, so a run killed during that write loses the mesh for good (C99_clean_refuted); proved for all other points of interruption (C99_clean_partial)."
  },
  {
   "property": "C100",
   "status": "proved",
   "theorems": [
    "C100_scores",
    "C100_range",
    "C100_perfect",
    "C100_unlabelled"
   ],
   "note": ""
  },
  {
   "property": "C101",
   "status": "proved",
   "theorems": [
    "C101_labels"
   ],
   "note": ""
  },
  {
   "property": "C102",
   "status": "proved",
   "theorems": [
    "C102_normals",
    "C102_bad",
    "C102_align",
    "C102_order",
    "C102_corner",
    "C102_flip"
   ],
   "note": ""
  },
  {
   "property": "C103",
   "status": "proved",
   "theorems": [
    "C103_two_ways",
    "C103_process"
   ],
   "note": "process_batch and model_forward are modelled with the collated dictionary, including the exceptions for missing or wrongly typed entries. The merged clouds agree in every field but batch_size: Points.cuda() forgets it (see C66)."
  },
  {
   "property": "C104",
   "status": "proved",
   "theorems": [
    "C104_unet",
    "C104_segnet"
   ],
   "note": "Evaluation mode (batch normalisation row by row, no dropout), exact arithmetic. SegNet with nempty=False only: with nempty=True it raises (C68)."
  },
  {
   "property": "C105",
   "status": "proved",
   "theorems": [
    "C105_lenet",
    "C105_resnet",
    "C105_hrnet"
   ],
   "note": "The per-row loss of CrossEntropyLoss is an arbitrary function of row and label. The full layers must not be finer than the coarsest pooled layer."
  },
  {
   "property": "C106",
   "status": "proved",
   "theorems": [
    "C106_npz",
    "C106_xyz",
    "C106_xyz_none",
    "C106_errors",
    "C106_read"
   ],
   "note": "Files are modelled by the numbers in them. Colors are never found in an archive written by Points.save, because features are saved as 'features'."
  },
  {
   "property": "C107",
   "status": "partial",
   "theorems": [
    "C107_round",
    "C107_bare_refuted",
    "C107_errors",
    "C107_modelnet",
    "C107_modelnet_npz",
    "C107_shapenet",
    "C107_parts",
    "C107_single_refuted"
   ],
   "note": "The rounding to 32 bits is any idempotent function that is exact on the integers from 0 to 255. A file name without a folder raises FileNotFoundError (C107_bare_refuted) and a text file of one point IndexError (C107_single_refuted)."
  },
  {
   "property": "C108",
   "status": "proved",
   "theorems": [
    "C108_modelnet",
    "C108_nested",
    "C108_all",
    "C108_represented",
    "C108_not40",
    "C108_split",
    "C108_split_all",
    "C108_kitti"
   ],
   "note": "Rounding of products is any monotone function exact on small integers (for 0.8 on multiples of 1/8 up to 2^50). Folders are listings without repeated names."
  },
  {
   "property": "C109",
   "status": "partial",
   "theorems": [
    "C109_partial",
    "C109_refuted"
   ],
   "note": "Without the proviso the statement is false of the code: 'c in line' also matches inside the name, and the shape is listed a second time with the wrong number (C109_refuted)."
  },
  {
   "property": "C110",
   "status": "proved",
   "theorems": [
    "C110_motions",
    "C110_conv",
    "C110_pool",
    "C110_global_pool",
    "C110_resnet",
    "C110_input",
    "C110_cloud"
   ],
   "note": "Motions, convolution, pooling, ResNet for any motion; end to end for translations of clouds. Mirror images are proved for octrees, not for clouds: a point on the face of a cell belongs to the other cell after mirroring."
  },
  {
   "property": "C111",
   "status": "proved",
   "theorems": [
    "C111_resolution",
    "C111_cells",
    "C111_neigh",
    "C111_more_points"
   ],
   "note": "Averaged signals (normals, features) do depend on the points; only the nodes, children, counts and neighbour tables are claimed equal."
  },
  {
   "property": "C112",
   "status": "proved",
   "theorems": [
    "C112_firsts",
    "C112_conv",
    "C112_deconv",
    "C112_interp",
    "C112_unet",
    "C112_cloud",
    "C112_own_points"
   ],
   "note": "Translations by whole cells for the network; single layers also for exchanged axes with turned weights. A mirrored shape is not covered for stride 2: the kernel of a stride-2 layer starts at the first child, and a mirror image changes which child is first (C112_mirror_case)."
  },
  {
   "property": "C113",
   "status": "proved",
   "theorems": [
    "C113_upgrade",
    "C113_upgrade_fails",
    "C113_replace",
    "C113_listing",
    "C113_file"
   ],
   "note": "Whether new names coincide depends on the checkpoint: C113_lost_case shows two names that become one, C113_bias_case a weight and a bias that are torn apart, C113_twice_case that the tool is not idempotent."
  },
  {
   "property": "C114",
   "status": "proved",
   "theorems": [
    "C114_sample_files",
    "C114_view",
    "C114_unknown_type"
   ],
   "note": ""
  },
  {
   "property": "C115",
   "status": "proved",
   "theorems": [
    "C115_child",
    "C115_pool_indices",
    "C115_unpool",
    "C115_upsample",
    "C115_hrnet",
    "C115_hrnet_cloud",
    "C115_segnet",
    "C115_segnet_cloud"
   ],
   "note": "SegNet is stated for nempty=False: with nempty=True its code raises (C68). HRNet needs moves by cells of layer 2 or coarser since its coarsest branch lives there."
  },
  {
   "property": "C116",
   "status": "proved",
   "theorems": [
    "C116_training",
    "C116_classes",
    "C116_labels",
    "C116_hrnet",
    "C116_segnet",
    "C116_motion"
   ],
   "note": "Sums are exact (real arithmetic); in floating point the order of summation can change the last bits. The update of the running statistics is not modelled; 1/sqrt(v+eps) is an arbitrary function."
  },
  {
   "property": "C117",
   "status": "proved",
   "theorems": [
    "C117_resnet",
    "C117_hrnet",
    "C117_unet",
    "C117_segnet"
   ],
   "note": "Exact arithmetic; normalisation is any function of the rows that does not depend on their order (C116 shows that batch normalisation in training mode is one). Query points may lie anywhere in the box, for linear interpolation at least half a cell from its border."
  },
  {
   "property": "C118",
   "status": "proved",
   "theorems": [
    "C118_conv",
    "C118_dwconv",
    "C118_deconv"
   ],
   "note": "Exact arithmetic. The buffer holds the taps of at least one node, as in C33 and C37 (with a smaller buffer the code raises)."
  },
  {
   "property": "C119",
   "status": "proved",
   "theorems": [
    "C119_conv",
    "C119_dwconv",
    "C119_deconv",
    "C119_deconv_forward",
    "C119_conv_stride2",
    "C119_dwconv_stride2",
    "C119_deconv_stride2"
   ],
   "note": "Exact arithmetic. For stride 2 the motion keeps first children first, as in C112. The motion moves cells of the layers from e on; with features of all nodes from layer e+1 on."
  },
  {
   "property": "C120",
   "status": "partial",
   "theorems": [
    "C120_tables",
    "C120_command",
    "C120_share",
    "C120_whole",
    "C120_results_partial",
    "C120_means",
    "C120_printed",
    "C120_results_refuted",
    "C120_alias_refuted"
   ],
   "note": "Missing from the proved part: ratios that are printed alike with two digits share their log folders, and a row then shows the results of the last of them (C120_printed, C120_results_refuted); an alias that is empty or starts with '/' puts the logs where the summary does not look for them (C120_alias_refuted). What a command does to files is a parameter: its log ends with its own line and no other log changes. Means in exact arithmetic; the text of summaries.csv is not modelled."
  },
  {
   "property": "C121",
   "status": "proved",
   "theorems": [
    "C121_conv",
    "C121_deconv",
    "C121_interp",
    "C121_unet",
    "C121_nodes",
    "C121_scene"
   ],
   "note": "The reach is an upper bound of the distance; that it is attained is not claimed. Normalisation in evaluation mode (in training mode the statistics of batch norm depend on all nodes)."
  },
  {
   "property": "C122",
   "status": "proved",
   "theorems": [
    "C122_cell",
    "C122_mean",
    "C122_local",
    "C122_global",
    "C122_crowded_refuted"
   ],
   "note": "Without the limit on the number of points the stored point can leave the cell (C122_crowded_refuted). scatter_add_ is modelled as adding rows one after the other; every order is covered because the theorem holds for every order of the cloud. Normals and features are not covered."
  },
  {
   "property": "C123",
   "status": "proved",
   "theorems": [
    "C123_unet",
    "C123_lenet",
    "C123_resnet",
    "C123_hrnet",
    "C123_segnet",
    "C123_autoencoder",
    "C123_decoders",
    "C123_names"
   ],
   "note": "The list of tensors (SpecState) is written from the constructors; a batch normalisation is one entry (its four tensors and its mode). Dropout masks and tanh are taken to be the same. That the weights and the bias of the last layer matter is C127."
  },
  {
   "property": "C124",
   "status": "proved",
   "theorems": [
    "C124_zero_branch",
    "C124_nonneg"
   ],
   "note": "Stated for calls that return; that the blocks return on well-formed octrees is part of C67."
  },
  {
   "property": "C125",
   "status": "proved",
   "theorems": [
    "C125_bounded",
    "C125_decoders"
   ],
   "note": "tanh is an arbitrary function whose values satisfy the bound."
  },
  {
   "property": "C126",
   "status": "proved",
   "theorems": [
    "C126_nearby_cloud",
    "C126_points_found",
    "C126_batch_size"
   ],
   "note": "The averages stored in the last layer are in C122; the weights of linear interpolation are in C128."
  },
  {
   "property": "C127",
   "status": "proved",
   "theorems": [
    "C127_unet",
    "C127_segnet",
    "C127_lenet",
    "C127_resnet",
    "C127_hrnet",
    "C127_last_layer"
   ],
   "note": "Exact arithmetic. The auto-encoder applies tanh or further layers after its headers and is not covered."
  },
  {
   "property": "C128",
   "status": "proved",
   "theorems": [
    "C128_same_cells",
    "C128_matrix",
    "C128_output"
   ],
   "note": "Covers the sparse matrix; the order in which torch.sparse.mm adds the products is the library's. Depth 0 is excluded: there the fractional part needs 25 bits."
  },
  {
   "property": "C129",
   "status": "proved",
   "theorems": [
    "C129_same_weights",
    "C129_matrix",
    "C129_nearest"
   ],
   "note": "Covers the sparse matrix; its product with the data is covered by C128_output."
  },
  {
   "property": "C130",
   "status": "proved",
   "theorems": [
    "C130_same_cells",
    "C130_nearest"
   ],
   "note": "Covers the sparse matrix of linear interpolation and the output of nearest-neighbour interpolation. Negative positions are not covered: there the subtraction of one half can round to the next cell boundary."
  },
  {
   "property": "C131",
   "status": "proved",
   "theorems": [
    "C131_kept",
    "C131_clipped_found"
   ],
   "note": "With esp=0 the bound is 1 and the theorem does not apply: example C131_no_margin keeps the largest number below 1, which C75 shows to wrap."
  },
  {
   "property": "C132",
   "status": "partial",
   "theorems": [
    "C132_within",
    "C132_near",
    "C132_safe",
    "C132_bbox",
    "C132_far_refuted"
   ],
   "note": "The condition on the longest side is necessary in some form: C132_far_refuted. The reciprocal-and-multiply order of a Python number divided by a tensor is modelled."
  },
  {
   "property": "C133",
   "status": "proved",
   "theorems": [
    "C133_normalized_found"
   ],
   "note": "One sample; for batches see C131. The condition on the extent cannot be dropped altogether: C132_far_refuted."
  },
  {
   "property": "C134",
   "status": "proved",
   "theorems": [
    "C134_flip",
    "C134_unknown"
   ],
   "note": "Payloads and signs of NaN are not distinguished in the model."
  },
  {
   "property": "C135",
   "status": "proved",
   "theorems": [
    "C135_orient",
    "C135_again",
    "C135_other"
   ],
   "note": "Payloads and signs of NaN are not distinguished in the model."
  },
  {
   "property": "C136",
   "status": "partial",
   "theorems": [
    "C136_translate",
    "C136_back_refuted"
   ],
   "note": "C136_back_refuted: exact translation is undone by the opposite displacement, single-precision translation need not be."
  }
 ]
}