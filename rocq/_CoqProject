-Q theories Verif
theories/Base.v
theories/Mat2D_model.v
theories/Mat2D_proofs.v
theories/Mat2D_props.v
theories/Harmonics_model.v
theories/Harmonics_proofs.v
theories/Harmonics_props.v
theories/Util_model.v
theories/Util_proofs.v
theories/Util_props.v
theories/CLib_model.v
theories/CLib_proofs.v
theories/SysInfo_model.v
theories/SysInfo_proofs.v
theories/SysInfo_props.v
theories/Filter_model.v
theories/Filter_proofs.v
theories/Filter_props.v
theories/Poly_model.v
theories/Poly_proofs.v
theories/Poly_props.v
theories/Kalman2_model.v
theories/Kalman2_proofs.v
theories/Kalman2_props.v
theories/Ekf_model.v
theories/Ekf_proofs.v
theories/Ekf_props.v
theories/Doppler_model.v
theories/Doppler_proofs.v
theories/Doppler_props.v
theories/Stream_model.v
theories/Rinex_model.v
theories/Rinex_proofs.v
theories/Rinex_props.v
theories/RnxHead_model.v
theories/RnxHead_proofs.v
theories/RnxHead_props.v
theories/Lines_model.v
theories/Lines_proofs.v
theories/Eop_model.v
theories/Eop_proofs.v
theories/Eop_props.v
theories/C04_model.v
theories/C04_proofs.v
theories/C04_props.v
theories/Sci_proofs.v
theories/Icgem_model.v
theories/Icgem_proofs.v
theories/Icgem_props.v
theories/Pcv_model.v
theories/Pcv_proofs.v
theories/Pcv_props.v
theories/SatCorr_model.v
theories/SatCorr_proofs.v
theories/SatCorr_props.v
theories/Quat_model.v
theories/Quat_proofs.v
theories/Quat_props.v
theories/SpaceWeather_model.v
theories/SpaceWeather_proofs.v
theories/SpaceWeather_props.v
theories/Vec_model.v
theories/Vec_proofs.v
theories/Kepler_model.v
theories/Kepler_proofs.v
theories/Kepler_props.v
theories/Calc.v
theories/Frames_model.v
theories/Frames_proofs.v
theories/Frames_props.v
theories/Forces_model.v
theories/Forces_proofs.v
theories/Forces_props.v
theories/Shadow_model.v
theories/Shadow_proofs.v
theories/Shadow_props.v
theories/SunMoon_model.v
theories/SunMoon_proofs.v
theories/SunMoon_props.v
theories/Partials_model.v
theories/Partials_proofs.v
theories/Partials_props.v
theories/Kernels_model.v
theories/Kernels_proofs.v
theories/Kernels_props.v
theories/HttpGet_model.v
theories/HttpGet_proofs.v
theories/HttpGet_props.v
theories/SinexCrd_model.v
theories/SinexCrd_proofs.v
theories/SinexCrd_props.v
theories/BeaconTbl_model.v
theories/BeaconTbl_proofs.v
theories/BeaconTbl_props.v
theories/LegendreAlg.v
theories/Legendre.v
theories/GravHarm.v
theories/Gravity_model.v
theories/Gravity_proofs.v
theories/Gravity_props.v
theories/ExpAtm_model.v
theories/ExpAtm_proofs.v
theories/ExpAtm_props.v
theories/Spline_model.v
theories/Spline_proofs.v
theories/Spline_props.v
theories/Msis_model.v
theories/Msis_spline.v
theories/Msis_proofs.v
theories/Msis_history.v
theories/Msis_data.v
theories/Msis_code.v
theories/Msis_facts.v
theories/Msis_refute.v
theories/Msis_props.v
theories/Adams.v
theories/Sgode_model.v
theories/Sgode_proofs.v
theories/Sgode_adams.v
theories/Sgode_run.v
theories/Sgode_refute.v
theories/Sgode_props.v
theories/Variational_model.v
theories/Variational_proofs.v
theories/Variational_props.v
theories/Relativity_model.v
theories/Relativity_proofs.v
theories/Relativity_props.v
theories/EopInterp_model.v
theories/EopInterp_proofs.v
theories/EopInterp_props.v
theories/RfoFit_model.v
theories/RfoFit_proofs.v
theories/RfoFit_props.v
theories/PodArc_model.v
theories/PodArc_proofs.v
theories/PodArc_props.v
theories/PodState_model.v
theories/PodState_proofs.v
theories/PodFilter_proofs.v
theories/PodState_props.v
theories/PodObs_model.v
theories/PodObs_proofs.v
theories/PodObs_props.v
theories/RfoKalman_model.v
theories/RfoKalman_proofs.v
theories/RfoKalman_props.v
theories/Ghp7_model.v
theories/Ghp7_proofs.v
theories/Ghp7_props.v
theories/Yaml_model.v
theories/Yaml_proofs.v
theories/Yaml_props.v
theories/RnxFile_model.v
theories/RnxFile_proofs.v
theories/RnxFileText_proofs.v
theories/RnxFileSafe_proofs.v
theories/RnxFile_props.v
theories/RnxWhole_model.v
theories/RnxWhole_proofs.v
theories/RnxWhole_props.v
theories/BlockRead_model.v
theories/DopFile_model.v
theories/DopFile_proofs.v
theories/DopFile_props.v
theories/RfoFile_model.v
theories/RfoFile_proofs.v
theories/RfoFile_props.v
theories/PolyFile_model.v
theories/PolyFile_proofs.v
theories/PolyFile_props.v
theories/FrameTime_model.v
theories/FrameTime_proofs.v
theories/FrameTime_props.v
theories/MsisSwitch_model.v
theories/MsisSwitch_proofs.v
theories/MsisSwitch_props.v
theories/AirParams_model.v
theories/AirParams_proofs.v
theories/AirParams_props.v
theories/MsisLayers_proofs.v
theories/MsisLayers_props.v
theories/GravRow_model.v
theories/GravRow_proofs.v
theories/GravRow_props.v
theories/IntParams_model.v
theories/IntParams_proofs.v
theories/IntParams_props.v
theories/FloatTime_model.v
theories/FloatTime_proofs.v
theories/FloatTime_props.v
theories/FloatAngle_model.v
theories/FloatAngle_proofs.v
theories/FloatAngle_props.v
theories/FloatRange_model.v
theories/FloatRange_proofs.v
theories/FloatRange_props.v
theories/FloatKalman_model.v
theories/FloatKalman_proofs.v
theories/FloatKalman_props.v
theories/FloatFreq_model.v
theories/FloatFreq_proofs.v
theories/FloatFreq_props.v
theories/FloatRel_model.v
theories/FloatRel_proofs.v
theories/FloatRel_props.v
theories/FloatObs_model.v
theories/FloatObs_proofs.v
theories/FloatObs_props.v
