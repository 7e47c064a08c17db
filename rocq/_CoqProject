-Q theories Verif
theories/Base.v
theories/NumSig.v
theories/XR.v
theories/P_Trapz.v
theories/M_Blackbody.v
theories/S_Planck.v
theories/P_Blackbody.v
theories/P_Blackbody2.v
theories/T_Blackbody.v
theories/M_Tables.v
theories/M_Utils.v
theories/M_Rsr.v
theories/M_RadTb.v
theories/S_RadTb.v
theories/P_RadTb.v
theories/S_Rsr.v
theories/P_Rsr.v
theories/S_Seviri.v
theories/P_Seviri.v
theories/P_RadTb2.v
theories/Samples.v
theories/P_RadTb3.v
theories/P_RadTb4.v
theories/T_RadTb.v
theories/P_Seviri2.v
theories/T_Seviri.v
theories/S_Utils.v
theories/P_Utils.v
theories/P_Sort.v
theories/P_Width.v
theories/P_Central.v
theories/S_Names.v
theories/P_Names.v
theories/P_Convert.v
theories/P_Utils2.v
theories/S_Convert.v
theories/P_Convert2.v
theories/P_Utils3.v
theories/P_Rsr3.v
theories/S_Utf8.v
theories/P_Utf8.v
theories/T_Utils.v
theories/P_Integral.v
theories/T_Rsr.v
theories/M_Solar.v
theories/S_Solar.v
theories/P_Solar.v
theories/P_Solar2.v
theories/T_Solar.v
theories/M_AtmIR.v
theories/S_AtmIR.v
theories/P_AtmIR.v
theories/T_AtmIR.v
theories/M_World.v
theories/M_Config.v
theories/S_Config.v
theories/P_Config.v
theories/T_Config.v
theories/M_Download.v
theories/M_Dtype.v
theories/S_Dtype.v
theories/S_Download.v
theories/P_Strings.v
theories/P_Events.v
theories/P_Download.v
theories/P_Crash.v
theories/P_Lut.v
theories/P_Lut2.v
theories/Samples2.v
theories/T_Download.v
theories/M_Procs.v
theories/S_Procs.v
theories/P_Procs.v
theories/P_Procs2.v
theories/Samples10.v
theories/P_Procs3.v
theories/T_Procs.v
theories/M_Nir.v
theories/S_Nir.v
theories/S_Nir2.v
theories/P_Arr.v
theories/P_Nir.v
theories/P_Nir2.v
theories/P_Nir3.v
theories/P_Nir4.v
theories/P_Nir5.v
theories/Samples3.v
theories/P_Nir6.v
theories/T_Nir.v
theories/M_NirKinds.v
theories/S_NirKinds.v
theories/P_NirKinds.v
theories/T_NirKinds.v
theories/M_Fake.v
theories/S_Fake.v
theories/P_Fake.v
theories/P_Fake2.v
theories/P_Fake3.v
theories/T_Fake.v
theories/S_NirDoubles.v
theories/P_NirDoubles.v
theories/P_NirDoubles2.v
theories/M_Rayleigh.v
theories/S_Rayleigh.v
theories/P_Rayleigh.v
theories/P_Rayleigh2.v
theories/P_Rayleigh3.v
theories/P_Rayleigh4.v
theories/P_Rayleigh5.v
theories/Samples4.v
theories/T_Rayleigh.v
theories/M_Logging.v
theories/S_Logging.v
theories/P_Logging.v
theories/T_Logging.v
theories/M_Testing.v
theories/S_Testing.v
theories/P_Testing.v
theories/P_Testing2.v
theories/P_Testing3.v
theories/P_Testing4.v
theories/Samples5.v
theories/P_Testing5.v
theories/P_Testing6.v
theories/T_Testing.v
theories/M_Hdf5.v
theories/S_Hdf5.v
theories/P_Hdf5.v
theories/P_Hdf52.v
theories/Samples6.v
theories/P_Hdf53.v
theories/T_Hdf5.v
theories/M_Raw.v
theories/S_Raw.v
theories/P_Raw.v
theories/P_Raw2.v
theories/P_Raw3.v
theories/P_Raw4.v
theories/P_Raw5.v
theories/P_Raw6.v
theories/P_Raw7.v
theories/Samples7.v
theories/S_Select.v
theories/P_Tight.v
theories/P_Tight2.v
theories/P_Select.v
theories/T_Select.v
theories/T_Raw.v
theories/S_Raw2.v
theories/P_Raw8.v
theories/P_RawBands.v
theories/P_ScriptNames.v
theories/P_Raw9.v
theories/P_Raw10.v
theories/P_Raw11.v
theories/Samples8.v
theories/T_Modis.v
theories/B64.v
theories/S_B64.v
theories/P_B64.v
theories/P_B642.v
theories/P_B643.v
theories/T_B64.v
theories/S_Effective.v
theories/P_Effective.v
theories/T_Effective.v
theories/P_B64ops.v
theories/P_B64sort.v
theories/P_B64grid.v
theories/T_Doubles.v
theories/P_B64mono.v
theories/P_B64planck.v
theories/P_B64band.v
theories/P_B64lib.v
theories/P_B64err.v
theories/P_B64err2.v
theories/P_B64err3.v
theories/T_Monotone.v
theories/T_Accuracy.v
theories/M_Scripts.v
theories/S_Scripts.v
theories/P_Scripts.v
theories/P_Scripts2.v
theories/P_Scripts3.v
theories/P_Scripts4.v
theories/Samples9.v
theories/T_Scripts.v
theories/Conf_Data.v
theories/Conformance.v
theories/Conformance2.v
theories/Samples11.v
theories/P_Dtype.v
theories/P_Dtype2.v
theories/T_Dtype.v
theories/M_Books.v
theories/S_Books.v
theories/P_Books.v
theories/P_Books2.v
theories/P_Books3.v
theories/P_Books4.v
theories/Samples12.v
theories/P_Books9.v
theories/T_Books.v
theories/S_Books2.v
theories/P_Books5.v
theories/P_Books6.v
theories/P_Books7.v
theories/P_Books8.v
theories/Samples13.v
theories/T_Books2.v
theories/P_NirDoubles3.v
theories/T_NirDoubles.v
theories/S_Tables.v
theories/P_Tables.v
theories/T_Tables.v
theories/S_RayDoubles.v
theories/P_RayDoubles.v
theories/P_RayDoubles2.v
theories/Samples14.v
theories/T_RayDoubles.v
theories/S_RayDoubles2.v
theories/P_RayDoubles3.v
theories/T_RayDoubles2.v
theories/S_AtmDoubles.v
theories/P_AtmDoubles.v
theories/T_AtmDoubles.v
theories/S_SevDoubles.v
theories/P_SevDoubles.v
theories/T_SevDoubles.v
theories/P_EmisDoubles.v
theories/P_EmisDoubles2.v
theories/T_EmisDoubles.v
theories/S_SolarDoubles.v
theories/P_SolarDoubles.v
theories/P_SolarDoubles2.v
theories/Samples15.v
theories/T_SolarDoubles.v
theories/P_CentralDoubles.v
theories/T_CentralDoubles.v
