-Q theories Verif
theories/Py.v
theories/Py_proof.v
theories/ListUtil.v
theories/munkres_model.v
theories/munkres_spec.v
theories/munkres_proof.v
theories/munkres_opt.v
theories/munkres_more.v
theories/munkres_props.v
theories/pairing_model.v
theories/pairing_spec.v
theories/pairing_proof.v
theories/pairing_props.v
theories/evaluation_model.v
theories/evaluation_spec.v
theories/evaluation_proof.v
theories/evaluation_direct.v
theories/evaluation_props.v
theories/utils_model.v
theories/utils_spec.v
theories/utils_proof.v
theories/utils_props.v
theories/levels_spec.v
theories/levels_proof.v
theories/levels_props.v
theories/logger_model.v
theories/logger_spec.v
theories/logger_proof.v
theories/logger_file.v
theories/logger_load.v
theories/logger_frame_spec.v
theories/logger_frame.v
theories/logger_props.v
theories/window_model.v
theories/window_spec.v
theories/window_proof.v
theories/window_concat.v
theories/window_slider.v
theories/window_sampled.v
theories/window_wavs.v
theories/window_props.v
theories/framing_model.v
theories/framing_spec.v
theories/framing_proof.v
theories/framing_props.v
theories/winheap_model.v
theories/winheap_spec.v
theories/winheap_proof.v
theories/winheap_indep.v
theories/winheap_value.v
theories/winheap_props.v
theories/nd_model.v
theories/nd_spec.v
theories/nd_proof.v
theories/metrics_model.v
theories/metrics_spec.v
theories/metrics_real.v
theories/metrics_proof.v
theories/metrics_more.v
theories/metrics_checks.v
theories/metrics_props.v
theories/sparse_model.v
theories/array_utils_model.v
theories/array_utils_spec.v
theories/array_utils_proof.v
theories/array_utils_props.v
theories/nmf_model.v
theories/nmf_spec.v
theories/nmf_proof.v
theories/nmf_laws.v
theories/nmf_fit.v
theories/nmf_stop.v
theories/nmf_props.v
theories/learner_model.v
theories/learner_spec.v
theories/learner_proof.v
theories/learner_more.v
theories/learner_refuse.v
theories/learner_props.v
theories/experiment_model.v
theories/experiment_spec.v
theories/experiment_proof.v
theories/experiment_coefs.v
theories/experiment_ready.v
theories/experiment_eval.v
theories/experiment_log.v
theories/experiment_keys.v
theories/experiment_run.v
theories/experiment_end.v
theories/experiment_save.v
theories/experiment_props.v
theories/serial_model.v
theories/serial_spec.v
theories/serial_proof.v
theories/serial_keys.v
theories/serial_props.v
theories/hac_model.v
theories/hac_spec.v
theories/hac_proof.v
theories/hac_props.v
theories/quant_model.v
theories/quant_spec.v
theories/quant_proof.v
theories/quant_kmeans.v
theories/quant_props.v
theories/transf_model.v
theories/transf_spec.v
theories/transf_proof.v
theories/transf_euler.v
theories/transf_quat.v
theories/transf_back.v
theories/transf_joints.v
theories/transf_props.v
theories/angle_model.v
theories/angle_spec.v
theories/angle_proof.v
theories/angle_vq.v
theories/angle_props.v
theories/kde_model.v
theories/kde_spec.v
theories/kde_proof.v
theories/kde_two.v
theories/kde_kl.v
theories/kde_cases.v
theories/kde_props.v
theories/sound_model.v
theories/sound_spec.v
theories/sound_proof.v
theories/sound_file.v
theories/sound_count.v
theories/sound_frame.v
theories/sound_props.v
theories/acorns_model.v
theories/acorns_spec.v
theories/acorns_proof.v
theories/acorns_load.v
theories/acorns_root.v
theories/acorns_props.v
theories/motion_model.v
theories/motion_spec.v
theories/motion_proof.v
theories/motion_file.v
theories/motion_props.v
theories/objects_model.v
theories/objects_spec.v
theories/objects_proof.v
theories/objects_read.v
theories/objects_build.v
theories/objects_file.v
theories/objects_refuse.v
theories/objects_props.v
theories/plots_model.v
theories/plots_spec.v
theories/plots_proof.v
theories/plots_props.v
theories/sliding_model.v
theories/sliding_spec.v
theories/sliding_proof.v
theories/sliding_props.v
theories/words_model.v
theories/words_spec.v
theories/words_text.v
theories/words_proof.v
theories/words_props.v
theories/info_model.v
theories/info_spec.v
theories/info_proof.v
theories/info_keys.v
theories/restore_model.v
theories/restore_proof.v
theories/info_props.v
theories/vctk_model.v
theories/vctk_spec.v
theories/vctk_text.v
theories/vctk_proof.v
theories/vctk_props.v
theories/figures_model.v
theories/figures_spec.v
theories/figures_proof.v
theories/figures_draw.v
theories/figures_exp.v
theories/figures_tables.v
theories/figures_props.v
theories/launcher_model.v
theories/launcher_spec.v
theories/launcher_names.v
theories/launcher_plan.v
theories/launcher_log.v
theories/launcher_run.v
theories/launcher_plot.v
theories/launcher_fail.v
theories/launcher_end.v
theories/launcher_props.v
theories/choreo2_model.v
theories/choreo2_spec.v
theories/choreo2_proof.v
theories/choreo2_props.v
theories/choreo1_model.v
theories/choreo1_spec.v
theories/choreo1_proof.v
theories/choreo1_props.v
theories/download_model.v
theories/download_spec.v
theories/download_proof.v
theories/download_props.v
theories/binned_model.v
theories/binned_spec.v
theories/binned_proof.v
theories/binned_props.v
theories/hacfeat_model.v
theories/hacfeat_spec.v
theories/hacfeat_proof.v
theories/hacfeat_props.v
theories/parse_model.v
theories/parse_spec.v
theories/parse_proof.v
theories/parse_props.v
theories/kdediv_model.v
theories/kdediv_spec.v
theories/kdediv_proof.v
theories/kdediv_props.v
theories/kdeval_spec.v
theories/kdeval_proof.v
theories/kdeval_witness.v
theories/kdeval_props.v
theories/affine_model.v
theories/affine_spec.v
theories/affine_proof.v
theories/affine_quat.v
theories/affine_props.v
theories/affine2_model.v
theories/affine2_spec.v
theories/affine2_proof.v
theories/affine2_props.v
theories/arcball_model.v
theories/arcball_spec.v
theories/arcball_slerp.v
theories/arcball_proof.v
theories/arcball_ball.v
theories/arcball_props.v
theories/objparse_model.v
theories/objparse_spec.v
theories/objparse_proof.v
theories/objparse_props.v
theories/decompose_model.v
theories/decompose_spec.v
theories/decompose_gs.v
theories/decompose_proof.v
theories/decompose_props.v
theories/superpose_model.v
theories/superpose_spec.v
theories/superpose_frame.v
theories/superpose_proof.v
theories/superpose_end.v
theories/superpose_exist.v
theories/superpose_exist2.v
theories/superpose_props.v
theories/eigpar_model.v
theories/eigpar_spec.v
theories/eigpar_rank.v
theories/eigpar_proof.v
theories/eigpar_rot.v
theories/eigpar_case.v
theories/eigproj_proof.v
theories/eigproj_shear.v
theories/eigproj_case.v
theories/eigpar_props.v
theories/eigproj_props.v
theories/finite_model.v
theories/finite_spec.v
theories/finite_proof.v
theories/finite_props.v
theories/stack_model.v
theories/stack_spec.v
theories/stack_proof.v
theories/stack_props.v
theories/config_model.v
theories/config_spec.v
theories/config_proof.v
theories/config_props.v
theories/chart_model.v
theories/chart_spec.v
theories/chart_proof.v
theories/chart_props.v
theories/evalslide_model.v
theories/evalslide_spec.v
theories/evalslide_windows.v
theories/evalslide_rows.v
theories/evalslide_proof.v
theories/evalslide_main.v
theories/evalslide_props.v
theories/logeq_model.v
theories/logeq_spec.v
theories/logeq_proof.v
theories/logeq_logs.v
theories/logeq_load.v
theories/logeq_props.v
theories/tenths_model.v
theories/tenths_spec.v
theories/tenths_proof.v
theories/tenths_props.v
theories/table_model.v
theories/table_spec.v
theories/table_proof.v
theories/table_rows.v
theories/table_props.v
theories/launch_model.v
theories/launch_spec.v
theories/launch_proof.v
theories/launch_props.v
theories/printlog_model.v
theories/printlog_spec.v
theories/printlog_proof.v
theories/printlog_props.v
theories/slidefiles_model.v
theories/slidefiles_spec.v
theories/slidefiles_proof.v
theories/slidefiles_props.v
theories/winnest_model.v
theories/winnest_spec.v
theories/winnest_proof.v
theories/winnest_trees.v
theories/winnest_sub.v
theories/winnest_wav.v
theories/winnest_props.v
theories/motioninfo_model.v
theories/motioninfo_spec.v
theories/motioninfo_proof.v
theories/motioninfo_props.v
theories/annotate_model.v
theories/annotate_spec.v
theories/annotate_proof.v
theories/annotate_props.v
theories/dom_model.v
theories/dom_spec.v
theories/dom_proof.v
theories/dom_props.v
theories/dbtext_model.v
theories/dbtext_spec.v
theories/dbtext_proof.v
theories/dbtext_props.v
theories/wintime_model.v
theories/wintime_spec.v
theories/wintime_proof.v
theories/wintime_props.v
theories/rectext_model.v
theories/rectext_spec.v
theories/rectext_proof.v
theories/rectext_props.v
theories/vnorm_model.v
theories/vnorm_spec.v
theories/vnorm_proof.v
theories/vnorm_props.v
theories/pyimport_model.v
theories/pyimport_spec.v
theories/pyimport_proof.v
theories/pyimport_props.v
theories/nmfworse_proof.v
theories/nmfworse_props.v
theories/nmfbound_proof.v
theories/nmfbound_props.v
theories/share_spec.v
theories/share_proof.v
theories/share_train.v
theories/share_props.v
theories/rowwise_proof.v
theories/rowwise_witness.v
theories/rowwise_props.v
